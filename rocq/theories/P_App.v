(** C151-C154: the example wallet. *)
From Coq Require Import Lia.
From Verif Require Import Base StringSpec Json MatcherModel MatcherSpec MatcherFacts MatcherExample CoreModel VcModel IssuerTypes SerdeSpec SerdeModel
  SerdeTrips SerdeText SerdeExample VcSerde VcSpec VcTrips VcText SerdeProps MetaSerde HolderModel RecordSerde RecordTrips QueryModel OfferLink WalletModel WalletSpec WalletFacts.
From Verif Require UrlModel.

(** ** C151: the store of credentials *)

(** After any operations, failed ones included, and restarts, whatever is found was saved, once for each identifier,
    and is what loading it gives.  ([dates_read]: a library reads the dates it has written.  Credentials that were
    read from JSON are readable, see C116.) *)
Theorem C151_found cx eng ops s : dates_read cx → (∀ c w, WSave c w ∈ ops → readable_vc (kc_vc c)) → s = ws_run cx ops ws_empty →
  ∃ l, ws_find cx eng None s = Ok l ∧ NoDup (map kc_id l) ∧
    ∀ c, (c ∈ l ↔ ws_load cx (kc_id c) s = Ok (Some c)) ∧ (c ∈ l → ∃ w, WSave c w ∈ ops).
Proof.
  intros Hd Hr ->. pose proof (tidy_run cx ops Hd Hr) as Ht. destruct (ws_list_total cx _ Ht) as [l Hl].
  exists l. unfold ws_find. rewrite Hl. split; [done|]. split; [exact (ws_list_nodup cx _ l Ht Hl)|]. intros c.
  pose proof (ws_list_elem cx _ l c Ht Hl) as Hc. split; [exact Hc|]. intros [v [Hv Hv']]%(mapM_elem _ _ _ c Hl).
  apply elem_of_list_fmap in Hv as ([id v'] & -> & Hv). apply elem_of_map_to_list in Hv. simpl in Hv'.
  destruct (all_saved_run cx ops _ (or_introl eq_refl) id v' Hv) as (c' & w & Hin & <- & ->).
  rewrite (de_credential_ser cx c' Hd (Hr c' w Hin)) in Hv'. injection Hv' as ->. eauto.
Qed.
Print Assumptions C151_found.
(** With constraints, those that meet them are found. *)
Theorem C151_filtered cx eng ops s k r : dates_read cx → (∀ c w, WSave c w ∈ ops → readable_vc (kc_vc c)) → s = ws_run cx ops ws_empty →
  ws_find cx eng (Some k) s = Ok r →
  ∀ c, c ∈ r ↔ ws_load cx (kc_id c) s = Ok (Some c) ∧ meets eng k (ser_vc cx (kc_vc c)).
Proof.
  intros Hd Hr -> H c. pose proof (tidy_run cx ops Hd Hr) as Ht. destruct (ws_list_total cx _ Ht) as [l Hl].
  unfold ws_find in H. rewrite Hl in H. rewrite (ws_filter_elem cx eng k l r c H). by rewrite (ws_list_elem cx _ l c Ht Hl).
Qed.
Print Assumptions C151_filtered.
(** There is an answer unless matching a stored credential panics (for which see C52). *)
Theorem C151_answers cx eng ops s k : dates_read cx → (∀ c w, WSave c w ∈ ops → readable_vc (kc_vc c)) → s = ws_run cx ops ws_empty →
  (∀ c w fs f, WSave c w ∈ ops → cn_fields k = Some fs → f ∈ fs → ¬ stuck eng f (ser_vc cx (kc_vc c))) →
  ∃ r, ws_find cx eng (Some k) s = Ok r.
Proof.
  intros Hd Hr Hs Hk. destruct (C151_found cx eng ops s Hd Hr Hs) as (l & Hl & _ & Hc).
  unfold ws_find in *. destruct (ws_list cx s) as [l'|]; [|done]. injection Hl as ->. apply ws_filter_total.
  intros c Hin fs f Hfs Hf. destruct (Hc c) as [_ Hw]. destruct (Hw Hin) as [w Hs']. by eapply Hk.
Qed.
Print Assumptions C151_answers.
(** A credential that was saved stays, through crashes too, until it is saved anew or removed; *)
Theorem C151_durable cx l1 c l2 s : dates_read cx → readable_vc (kc_vc c) → s = ws_run cx (l1 ++ WSave c true :: l2) ws_empty →
  (∀ o, o ∈ l2 → about o ≠ Some (kc_id c)) → ws_load cx (kc_id c) s = Ok (Some c).
Proof.
  intros Hd Hr -> Ho. rewrite ws_run_app, ws_run_cons.
  destruct (ws_run_other cx l2 (ws_step cx (WSave c true) (ws_run cx l1 ws_empty)) (kc_id c) (Some (ser_credential cx c)) Ho) as [H _];
    [simpl; by rewrite lookup_insert..|].
  unfold ws_load. by rewrite H, de_credential_ser.
Qed.
Print Assumptions C151_durable.
(** one that was removed stays away until it is saved again; *)
Theorem C151_removed cx l1 id l2 s1 s2 : s1 = ws_run cx l1 ws_empty → (ws_remove id true s1).2 = Ok tt →
  s2 = ws_run cx l2 (ws_step cx (WRemove id true) s1) → (∀ c w, WSave c w ∈ l2 → kc_id c ≠ id) → ws_load cx id s2 = Ok None.
Proof.
  intros -> Hok -> Ho. unfold ws_load.
  assert (ws_table (ws_run cx l2 (ws_step cx (WRemove id true) (ws_run cx l1 ws_empty))) !! id = None ∧
    ws_file (ws_run cx l2 (ws_step cx (WRemove id true) (ws_run cx l1 ws_empty))) !! id = None) as [-> _]; [|done].
  apply (ws_run_ind cx (λ s, ws_table s !! id = None ∧ ws_file s !! id = None)).
  - intros o s Hin [H1 H2]. destruct (decide (about o = Some id)) as [E|Hne]; [|by apply ws_step_other].
    destruct o as [c w|id' w| |]; try done; injection E as E; [by destruct (Ho c w Hin)|]. subst id'. simpl. unfold ws_remove. by rewrite H1.
  - simpl. unfold ws_remove in *. destruct (ws_table (ws_run cx l1 ws_empty) !! id); [|done]. simpl. by rewrite lookup_delete.
Qed.
Print Assumptions C151_removed.
(** and removing fails for credentials that are not there. *)
Theorem C151_remove_absent cx id written s : ws_load cx id s = Ok None → ∃ e, ws_remove id written s = (s, Err e).
Proof.
  unfold ws_load, ws_remove. destruct (ws_table s !! id) as [v|]; [by destruct (de_credential cx v)|]. eauto.
Qed.
Print Assumptions C151_remove_absent.
(** Refuted: an operation that fails has no effect.  A credential whose saving failed is found nevertheless, until the app is
    started again; *)
Theorem C151_failed_save_refuted cx c s : dates_read cx → readable_vc (kc_vc c) →
  (∃ e, (ws_save cx c false s).2 = Err e) ∧ ws_load cx (kc_id c) (ws_step cx (WSave c false) s) = Ok (Some c) ∧
  ws_load cx (kc_id c) (ws_run cx [WSave c false; WRestart] s) = ws_load cx (kc_id c) (ws_step cx WRestart s).
Proof.
  intros Hd Hr. split; [by eexists|]. split; [|done]. unfold ws_load. simpl. by rewrite lookup_insert, de_credential_ser.
Qed.
Print Assumptions C151_failed_save_refuted.
(** and one whose removal failed cannot be removed by trying again, but is back when the app is started again. *)
Theorem C151_failed_remove_refuted cx id v s : ws_table s !! id = Some v → ws_file s !! id = Some v →
  (∃ e, (ws_remove id false s).2 = Err e) ∧
  (∀ w, ∃ e, (ws_remove id w (ws_step cx (WRemove id false) s)).2 = Err e) ∧
  ws_table (ws_run cx [WRemove id false; WRemove id true; WRestart] s) !! id = Some v.
Proof.
  intros Ht Hf. simpl. unfold ws_remove. rewrite Ht. simpl. rewrite lookup_delete. simpl. split; [by eexists|]. split; [by eexists|done].
Qed.
Print Assumptions C151_failed_remove_refuted.

Module Ex.
  Definition subject (k v : string) : credential_subject := CredentialSubject (Some "did:a") [(k, JStr v)].
  Definition vc_of (id type : string) (q : quota credential_subject) : vc :=
    VC [KString "https://www.w3.org/2018/credentials/v1"] (Some id) (QMany ["VerifiableCredential"; type]) None None (KObject "https://issuer")
      q (Some 7%Z) None None None.
  Definition named (n : string) : display_metadata := DisplayMetadata n None None None (Some "#fff") None None.
  Definition employee : kept_credential :=
    KeptCredential "cred1" "https://issuer" (vc_of "cred1" "EmployeeIDCredential" (QOne (subject "email" "a@b.c"))) "a.b.c" 7000000000%Z (Some [named "Employee ID"]) None.
  Definition visitor : kept_credential :=
    KeptCredential "cred2" "https://issuer" (vc_of "cred2" "VisitorCredential" (QOne (subject "email" "a@b.c"))) "d.e.f" 8000000000%Z None None.
  Definition two_subjects : kept_credential :=
    KeptCredential "cred3" "https://issuer" (vc_of "cred3" "EmployeeIDCredential" (QMany [subject "email" "a@b.c"; subject "email" "d@e.f"]))
      "g.h.i" 7000000000%Z (Some [named "Employee ID"]) None.
  Definition ops : list wstore_op :=
    [WSave employee false; WSave visitor true; WRemove "cred2" true; WRestart; WSave two_subjects true; WSave visitor false; WRestart; WWritten].
  Lemma readable c w : WSave c w ∈ ops → readable_vc (kc_vc c).
  Proof.
    intros H. apply (vc_read_iff ex_cx); [apply ex_dates|]. unfold ops in H.
    repeat (apply elem_of_cons in H as [H|H]; [first [discriminate H|injection H as -> _; vm_compute; reflexivity]|]).
    by apply elem_of_nil in H.
  Qed.
End Ex.
(** What failed to be saved is there in the end, because of a later one that succeeded. *)
Example C151_example : dates_read ex_cx ∧ (∀ c w, WSave c w ∈ Ex.ops → readable_vc (kc_vc c)) ∧
  ws_find ex_cx ex_engine None (ws_run ex_cx Ex.ops ws_empty) = Ok [Ex.employee; Ex.two_subjects] ∧
  ws_find ex_cx ex_engine (Some (by_type "EmployeeIDCredential")) (ws_run ex_cx [WSave Ex.employee true; WSave Ex.visitor true] ws_empty) = Ok [Ex.employee] ∧
  (ws_remove "cred2" true (ws_run ex_cx [WSave Ex.employee false; WSave Ex.visitor true] ws_empty)).2 = Ok tt.
Proof. split; [apply ex_dates|]. split; [exact Ex.readable|]. split; [|split]; vm_compute; reflexivity. Qed.

(** ** C152: what is shown *)

(** When every stored credential says how to display it, the wallet lists all of them, and nothing else, under their
    names and issuers. *)
Theorem C152_listed cx ops w es : dates_read cx → (∀ c x, WSave c x ∈ ops → readable_vc (kc_vc c)) → w_store w = ws_run cx ops ws_empty →
  (∀ c, ws_load cx (kc_id c) (w_store w) = Ok (Some c) → displayed (kc_display c)) → es = (perform cx Reset w).2 →
  ∃ v ds, es = [Shown v] ∧ v_sub_app v = Credentials ∧ v_credentials v = Some ds ∧ NoDup (map cd_id ds) ∧
    (∀ m, m ∈ ds → ∃ c, ws_load cx (cd_id m) (w_store w) = Ok (Some c)) ∧
    ∀ c, ws_load cx (kc_id c) (w_store w) = Ok (Some c) →
      ∃ d l m, kc_display c = Some (d :: l) ∧ m ∈ ds ∧ cd_id m = kc_id c ∧ cd_issuer m = Some (kc_issuer c) ∧ cd_logo m = kc_logo c ∧ looks_like d m.
Proof.
  intros Hd Hr Hw Hs ->. pose proof (tidy_run cx ops Hd Hr) as Ht. rewrite <-Hw in Ht. destruct (ws_list_total cx _ Ht) as [l Hl].
  cbn [perform]. rewrite (run_reset_listed cx w l Hl). cbn [emit snd w_app show a_sub_app a_credentials].
  assert (∀ c, c ∈ l → displayed (kc_display c)) as Hdl by (intros c Hc; apply Hs; by apply (ws_list_elem cx _ l c Ht Hl)).
  destruct (mapM_total show_credential l) as [ds Hds]; [intros c Hc; by apply show_credential_some, Hdl|]. rewrite Hds.
  assert (∀ c m, show_credential c = Some m → cd_id m = kc_id c) as Hid.
  { intros c m. unfold show_credential. destruct (first_display (kc_display c)); [|done]. by intros [= <-]. }
  eexists _, ds. split; [reflexivity|]. split; [done|]. split; [done|]. split; [|split].
  - replace (map cd_id ds) with (map kc_id l); [exact (ws_list_nodup cx _ l Ht Hl)|].
    clear -Hds Hid. apply mapM_Some in Hds. induction Hds as [|c m l ds Hc _ IH]; [done|]. simpl. rewrite IH. f_equal. symmetry. by apply Hid.
  - intros m Hm. apply (mapM_elem _ _ _ m Hds) in Hm as (c & Hc & Hm). exists c. rewrite (Hid c m Hm). by apply (ws_list_elem cx _ l c Ht Hl).
  - intros c Hc. destruct (Hs c Hc) as (d & l' & Hdl'). apply (ws_list_elem cx _ l c Ht Hl) in Hc.
    exists d, l'. eexists. split; [done|]. split; [apply (mapM_elem _ _ _ _ Hds); exists c; split; [done|]; unfold show_credential; by rewrite Hdl'|].
    done.
Qed.
Print Assumptions C152_listed.
(** Refuted: one stored credential that does not say how to display it, which is optional, and nothing is shown any more:
    listing the credentials panics, also at the end of an issuance or a presentation. *)
Theorem C152_panics_refuted cx ops w c k : dates_read cx → (∀ c x, WSave c x ∈ ops → readable_vc (kc_vc c)) → w_store w = ws_run cx ops ws_empty →
  ws_load cx (kc_id c) (w_store w) = Ok (Some c) → ¬ displayed (kc_display c) → k ∈ [Reset; Present true; GetCredentials true true [] true] →
  Panicked ∈ (perform cx k w).2 ∧ ∀ v, Shown v ∉ (perform cx k w).2.
Proof.
  intros Hd Hr Hw Hc Hnd Hk. pose proof (tidy_run cx ops Hd Hr) as Ht. rewrite <-Hw in Ht. destruct (ws_list_total cx _ Ht) as [l Hl].
  apply (ws_list_elem cx _ l c Ht Hl) in Hc.
  assert (mapM show_credential l = None) as Hn.
  { apply (mapM_none _ _ c Hc). destruct (show_credential c) eqn:E; [|done]. destruct Hnd. apply show_credential_some. by eexists. }
  assert (∀ w', w_store w' = w_store w → (run_reset cx w').2 = [Panicked]) as Hp.
  { intros w' Hw'. rewrite <-Hw' in Hl. rewrite (run_reset_listed cx w' l Hl). cbn [emit snd w_app show a_sub_app a_credentials]. by rewrite Hn. }
  apply elem_of_list_In in Hk. destruct Hk as [<-|[<-|[<-|[]]]]; cbn [perform].
  - rewrite Hp by done. split; [apply elem_of_list_here|]. intros v ?%elem_of_list_singleton. done.
  - cbn [calls snd]. rewrite Hp by done. simpl. split; [right; apply elem_of_list_here|]. intros v Hv.
    repeat (apply elem_of_cons in Hv as [Hv|Hv]; [discriminate Hv|]). by apply elem_of_nil in Hv.
  - cbn. rewrite Hp by done. split; [do 3 right; apply elem_of_list_here|]. intros v Hv.
    repeat (apply elem_of_cons in Hv as [Hv|Hv]; [discriminate Hv|]). by apply elem_of_nil in Hv.
Qed.
Print Assumptions C152_panics_refuted.
(** Refuted: errors are never part of what is shown, although the state has them. *)
Theorem C152_errors_refuted cx k w v : Shown v ∈ (perform cx k w).2 → v_error v = None.
Proof.
  assert (∀ a v, show a = Some v → v_error v = None) as Hs.
  { intros a v'. unfold show. destruct (a_sub_app a); [by intros [= <-]|destruct (mapM _ _)|destruct (show_issuance _)|destruct (show_presentation _)]; try done; by intros [= <-]. }
  assert (∀ w, Shown v ∈ (emit w).2 → v_error v = None) as He.
  { intros w'. simpl. rewrite elem_of_list_singleton. destruct (show (w_app w')) eqn:E; [|done]. intros [= ->]. by eapply Hs. }
  assert (∀ w, Shown v ∈ (fails w).2 → v_error v = None) as Hf by (intros w'; simpl; by rewrite elem_of_list_singleton).
  assert (∀ w, Shown v ∈ (run_reset cx w).2 → v_error v = None) as Hr.
  { intros w'. unfold run_reset. destruct (ws_list cx (w_store w')); [apply He|]. simpl. by rewrite elem_of_list_singleton. }
  assert (∀ l r, (Shown v ∈ r.2 → v_error v = None) → Shown v ∈ (calls l r).2 → v_error v = None) as Hc.
  { intros l r H. simpl. rewrite elem_of_app. intros [(x & ? & _)%elem_of_list_fmap|?]; [done|auto]. }
  assert (∀ t r w, Shown v ∈ (run_offer t r w).2 → v_error v = None) as Ho.
  { intros t r w'. unfold run_offer. destruct (read_offer t); [|apply Hf]. apply Hc. destruct r; [apply He|apply Hf]. }
  assert (∀ t r w, Shown v ∈ (run_request t r w).2 → v_error v = None) as Hq.
  { intros t r w'. unfold run_request. apply Hc. destruct r; [apply He|apply Hf]. }
  destruct k; cbn [perform].
  - apply He.
  - apply Hr.
  - simpl. rewrite elem_of_list_singleton. destruct (List.find _ _) as [c|]; [|done]. by destruct (show_detail c).
  - unfold run_delete. destruct (ws_remove id written (w_store w)) as [s [[]|e|e]]; [apply He|apply Hf|]. simpl. by rewrite elem_of_list_singleton.
  - apply Ho.
  - apply Hc. destruct done; [apply He|apply Hf].
  - apply Hc. destruct done; [apply He|apply Hf].
  - unfold run_credentials. destruct token; [destruct got; [destruct (save_all cx saves (w_store w)) as [s b]|]|]; apply Hc; try apply Hf.
    destruct (b && told); [apply Hr|apply Hf].
  - apply Hq.
  - apply Hc. destruct answer; [apply He|apply Hf].
  - apply Hc. destruct done; [apply Hr|apply Hf].
  - destruct (link_of payload); [apply Ho|apply Hq|by intros ?%elem_of_nil].
Qed.
Print Assumptions C152_errors_refuted.
(** The detail view of a credential with one subject has all its claims; *)
Theorem C152_detail_partial c s d : vc_subject (kc_vc c) = QOne s → NoDup (keys (cs_claims s)) → show_detail c = Some d →
  ∀ k t, dt_claims d !! k = Some t ↔ ∃ v, (k, v) ∈ cs_claims s ∧ t = json_text v.
Proof.
  intros Hs Hn Hd k t. unfold show_detail in Hd. destruct (first_display (kc_display c)); [|done]. cbn in Hd.
  destruct (show_credential c); [|done]. injection Hd as <-. cbn [dt_claims]. rewrite Hs. cbn [subjects_of].
  unfold detail_claims. cbn [fold_left]. split.
  - intros H. destruct (decide (k ∈ (cs_claims s).*1)) as [Hk|Hk].
    + apply elem_of_list_fmap in Hk as ([k' v] & -> & Hk). exists v. split; [done|]. rewrite (fold_claims _ _ ∅ v Hn Hk) in H. by injection H.
    + rewrite fold_claims_other in H by done. by rewrite lookup_empty in H.
  - intros (v & Hv & ->). by apply fold_claims.
Qed.
Print Assumptions C152_detail_partial.
(** it is the detail of the credential that was selected, and has its name, dates and description; *)
Theorem C152_selected cx id w es : es = (perform cx (Select id) w).2 →
  (∀ d, es = [Detail (Some d)] → ∃ c p l, c ∈ a_credentials (w_app w) ∧ kc_id c = id ∧ show_detail c = Some d ∧ kc_display c = Some (p :: l) ∧
     cd_id (dt_display d) = id ∧ looks_like p (dt_display d) ∧ dt_description d = ds_description p ∧
     dt_valid_from d = vc_valid_from (kc_vc c) ∧ dt_valid_until d = vc_valid_until (kc_vc c)) ∧
  (es = [Detail None] ↔ ∀ c, c ∈ a_credentials (w_app w) → kc_id c ≠ id).
Proof.
  intros ->. cbn [perform snd]. destruct (List.find _ (a_credentials (w_app w))) as [c|] eqn:E.
  - apply find_some in E as [Hin Hid%bool_decide_eq_true]. apply elem_of_list_In in Hin. split.
    + intros d. destruct (show_detail c) as [d'|] eqn:Ed; [|done]. intros [= ->]. pose proof Ed as Ed'. unfold show_detail, show_credential in Ed.
      destruct (kc_display c) as [[|p l]|] eqn:Ec; unfold first_display in Ed; cbn in Ed; try discriminate Ed. injection Ed as <-.
      exists c, p, l. unfold looks_like. cbn. split_and!; done.
    + split; [by destruct (show_detail c)|]. intros H. by destruct (H c Hin).
  - split; [done|]. split; [|done]. intros _ c Hc%elem_of_list_In Hid. apply (find_none _ _ E) in Hc. rewrite bool_decide_true in Hc; done.
Qed.
Print Assumptions C152_selected.
(** refuted for more subjects: of claims of the same name only the last subject's is shown. *)
Theorem C152_detail_refuted c s1 s2 d k v1 v2 : vc_subject (kc_vc c) = QMany [s1; s2] → NoDup (keys (cs_claims s2)) → show_detail c = Some d →
  (k, v1) ∈ cs_claims s1 → (k, v2) ∈ cs_claims s2 → dt_claims d !! k = Some (json_text v2).
Proof.
  intros Hs Hn Hd _ Hk. unfold show_detail in Hd. destruct (first_display (kc_display c)); [|done]. cbn in Hd.
  destruct (show_credential c); [|done]. injection Hd as <-. cbn [dt_claims]. rewrite Hs. cbn [subjects_of].
  unfold detail_claims. cbn [fold_left]. by apply fold_claims.
Qed.
Print Assumptions C152_detail_refuted.
(** A credential that was deleted is listed no more, and the others still are. *)
Theorem C152_deleted cx id w w' e : perform cx (Delete id true) w = (w', [e]) → e ≠ Failed →
  ∀ c, c ∈ a_credentials (w_app w') ↔ c ∈ a_credentials (w_app w) ∧ kc_id c ≠ id.
Proof.
  cbn [perform]. unfold run_delete, ws_remove. destruct (ws_table (w_store w) !! id); [|by intros [= <- <-]].
  intros [= <- <-] _ c. cbn [w_app a_credentials]. rewrite !elem_of_list_In, filter_In. split.
  - intros [? H%negb_true_iff%bool_decide_eq_false]. done.
  - intros [? H]. split; [done|]. by rewrite bool_decide_false.
Qed.
Print Assumptions C152_deleted.
(** Refuted: what is listed is in the store.  If writing the file fails when a credential is deleted, it is still listed and
    selected, but is neither found by a presentation nor can it be deleted. *)
Theorem C152_deleted_refuted cx w c l v : a_credentials (w_app w) = c :: l → ws_table (w_store w) !! kc_id c = Some v →
  let w' := (perform cx (Delete (kc_id c) false) w).1 in
  (perform cx (Delete (kc_id c) false) w).2 = [Failed] ∧ c ∈ a_credentials (w_app w') ∧
  ws_load cx (kc_id c) (w_store w') = Ok None ∧ (∀ x, (perform cx (Delete (kc_id c) x) w').2 = [Failed]) ∧
  (perform cx (Select (kc_id c)) w').2 = (perform cx (Select (kc_id c)) w).2.
Proof.
  intros Ha Ht. cbn [perform]. unfold run_delete, ws_remove. rewrite Ht. cbn [fails fst snd w_app w_store set_error a_credentials].
  split; [done|]. split; [rewrite Ha; apply elem_of_list_here|]. unfold ws_load. simpl. rewrite lookup_delete. split; [done|].
  split; [|done]. by intros x.
Qed.
Print Assumptions C152_deleted_refuted.
Module Ex2.
  Definition at_ops (l : list wstore_op) : wallet := Wallet app_default (ws_run ex_cx l ws_empty).
End Ex2.
Example C152_example :
  (∃ v m, (perform ex_cx Reset (Ex2.at_ops [WSave Ex.employee true])).2 = [Shown v] ∧ v_credentials v = Some [m] ∧ cd_name m = Some "Employee ID") ∧
  (perform ex_cx Reset (Ex2.at_ops [WSave Ex.employee true; WSave Ex.visitor true])).2 = [Panicked] ∧
  ¬ displayed (kc_display Ex.visitor) ∧
  (∃ d, show_detail Ex.two_subjects = Some d ∧ dt_claims d !! "email" = Some (json_text (JStr "d@e.f"))) ∧
  (∃ d, show_detail Ex.employee = Some d ∧ dt_claims d !! "email" = Some (json_text (JStr "a@b.c"))).
Proof.
  split; [eexists _, _; split; [vm_compute; reflexivity|]; split; reflexivity|]. split; [vm_compute; reflexivity|].
  split; [intros (d & l & H); discriminate H|]. split; (eexists; split; [vm_compute; reflexivity|]; vm_compute; reflexivity).
Qed.
Example C152_selected_example : ∃ w d v,
  w = (perform ex_cx Reset (Ex2.at_ops [WSave Ex.employee true])).1 ∧
  (perform ex_cx (Select "cred1") w).2 = [Detail (Some d)] ∧ cd_name (dt_display d) = Some "Employee ID" ∧
  (perform ex_cx (Select "cred2") w).2 = [Detail None] ∧
  (perform ex_cx (Delete "cred1" true) w).2 = [Shown v] ∧ v_credentials v = Some [].
Proof.
  eexists _, _, _. split; [reflexivity|]. split; [vm_compute; reflexivity|]. split; [reflexivity|]. split; [vm_compute; reflexivity|].
  split; [vm_compute; reflexivity|]. reflexivity.
Qed.

(** ** C153: which flow a command acts on *)

(** The commands of an issuance act on the last offer that was taken up, those of a presentation on the last request, or on
    none. *)
Theorem C153_latest cx st ks w tr k l : session cx ks (Wallet app_default st) = (w, tr) → Call l ∈ (perform cx k w).2 →
  (∀ id, issuance_called l = Some id → id = "" ∨ ∃ r, latest offer_taken tr r ∧ oa_id r = id) ∧
  (∀ id, presentation_called l = Some id → id = "" ∨ ∃ r, latest request_taken tr r ∧ ra_id r = id).
Proof.
  intros H Hl. destruct (flows_inv cx st ks w tr H) as [Hi Hp]. destruct (perform_call cx k w l Hl) as [H1 H2]. split.
  - intros id ->%H1. destruct Hi as [[? _]|(r & p & Hr & ->)]; eauto.
  - intros id ->%H2. destruct Hp as [[? _]|(r & p & Hr & ->)]; eauto.
Qed.
Print Assumptions C153_latest.
(** As long as nothing panics, what they act on is what is on the screen: an issuance is of the credentials shown there, with
    their names and the name of the issuer, and the PIN that is asked for is the one the offer describes; *)
Theorem C153_offer_on_screen_partial cx st ks w tr k l id v iv : session cx ks (Wallet app_default st) = (w, tr) →
  (∀ e, e ∈ tr → Panicked ∉ e.2) → screen tr = Some v → v_issuance v = Some iv →
  Call l ∈ (perform cx k w).2 → issuance_called l = Some id →
  ∃ r, latest offer_taken tr r ∧ oa_id r = id ∧
    (∀ n, is_Some (iv_credentials iv !! n) ↔ is_Some (oa_offered r !! n)) ∧
    (∀ n m, oa_offered r !! n = Some m → ∃ d t s, cm_display m = Some (d :: t) ∧ iv_credentials iv !! n = Some s ∧
       cd_issuer s = Some (oa_issuer r) ∧ looks_like d s) ∧
    match tx_code_of (oa_grants r) with
    | None => iv_pin_schema iv = None
    | Some t => ∃ p, iv_pin_schema iv = Some p ∧ (ps_text p = true ↔ tc_input_mode t = Some "text") ∧
        ps_length p = default 6%Z (tc_length t) ∧ ps_description p = tc_description t
    end.
Proof.
  intros H Hn Hs Hv Hl Hid. pose proof (screen_is cx st ks w tr v H Hn Hs) as Hsh. destruct (flows_inv cx st ks w tr H) as [Hi _].
  destruct (perform_call cx k w l Hl) as [H1 _]. apply H1 in Hid as ->.
  unfold show in Hsh. destruct (a_sub_app (w_app w)) eqn:Ea.
  1: by injection Hsh as <-. 1: destruct (mapM _ _); [by injection Hsh as <-|done]. 2: destruct (show_presentation _); [by injection Hsh as <-|done].
  destruct (show_issuance (a_issuance (w_app w))) as [iv'|] eqn:Eis; [|done]. injection Hsh as <-. injection Hv as ->.
  destruct Hi as [[_ ?]|(r & p & Hr & Ei)]; [done|]. exists r. split; [done|]. rewrite Ei. split; [done|].
  rewrite Ei in Eis. unfold show_issuance in Eis. cbn [issuance_from as_issuer as_offered as_pin as_tx_code] in Eis.
  destruct (show_offered (oa_issuer r) (oa_offered r)) as [sl|] eqn:Eo; [|done]. injection Eis as <-. cbn [iv_credentials iv_pin_schema].
  unfold show_offered in Eo.
  assert (∀ n m, oa_offered r !! n = Some m → ∃ s, (n, s) ∈ sl ∧ (d ← show_configuration m; Some (from_issuer (oa_issuer r) d)) = Some s) as Hm.
  { intros n m Hm. assert ((n, m) ∈ map_to_list (oa_offered r)) as Hin by by apply elem_of_map_to_list.
    apply mapM_Some in Eo. apply elem_of_list_lookup in Hin as [i Hin]. destruct (Forall2_lookup_l _ _ _ _ _ Eo Hin) as ([n' s] & Hs' & Hy). simpl in Hy.
    destruct (show_configuration m) as [d|]; [|done]. injection Hy as <- <-. eexists. split; [by eapply elem_of_list_lookup_2|done]. }
  assert (sl.*1 = (map_to_list (oa_offered r)).*1) as Hkeys.
  { clear -Eo. apply mapM_Some in Eo. induction Eo as [|[n m] [n' s] a b Hy _ IH]; [done|]. simpl in Hy |- *.
    destruct (show_configuration m); [|done]. injection Hy as <- _. f_equal. exact IH. }
  assert (NoDup sl.*1) as Hnd by (rewrite Hkeys; apply NoDup_fst_map_to_list).
  split; [|split].
  - intros n. split.
    + intros [s Hs']. apply elem_of_list_to_map in Hs'; [|done]. assert (n ∈ sl.*1) as Hk by (apply elem_of_list_fmap; by exists (n, s)).
      rewrite Hkeys in Hk. apply elem_of_list_fmap in Hk as ([n' m] & -> & Hk). apply elem_of_map_to_list in Hk. by exists m.
    + intros [m Hm']. destruct (Hm n m Hm') as (s & Hin & _). exists s. by apply elem_of_list_to_map.
  - intros n m Hm'. destruct (Hm n m Hm') as (s & Hin & Hy). destruct (cm_display m) as [[|d t]|] eqn:Ed;
      unfold show_configuration, first_display in Hy; rewrite Ed in Hy; cbn in Hy; try discriminate Hy. injection Hy as <-.
    eexists d, t, _. split; [done|]. split; [by apply elem_of_list_to_map|]. done.
  - destruct (tx_code_of (oa_grants r)); simpl; [|done]. eexists. split; [done|]. cbn. split; [apply bool_decide_eq_true|done].
Qed.
Print Assumptions C153_offer_on_screen_partial.
(** and a presentation is of the request whose credentials are shown. *)
Theorem C153_request_on_screen_partial cx st ks w tr k l id v pv : session cx ks (Wallet app_default st) = (w, tr) →
  (∀ e, e ∈ tr → Panicked ∉ e.2) → screen tr = Some v → v_presentation v = Some pv →
  Call l ∈ (perform cx k w).2 → presentation_called l = Some id →
  ∃ r, latest request_taken tr r ∧ ra_id r = id ∧
    (∀ c, c ∈ ra_credentials r → is_Some (pv_credentials pv !! kc_id c)) ∧
    (∀ n s, pv_credentials pv !! n = Some s → ∃ c d t, c ∈ ra_credentials r ∧ kc_id c = n ∧ kc_display c = Some (d :: t) ∧
       cd_issuer s = Some (kc_issuer c) ∧ looks_like d s).
Proof.
  intros H Hn Hs Hv Hl Hid. pose proof (screen_is cx st ks w tr v H Hn Hs) as Hsh. destruct (flows_inv cx st ks w tr H) as [_ Hp].
  destruct (perform_call cx k w l Hl) as [_ H1]. apply H1 in Hid as ->.
  unfold show in Hsh. destruct (a_sub_app (w_app w)) eqn:Ea.
  1: by injection Hsh as <-. 1: destruct (mapM _ _); [by injection Hsh as <-|done]. 1: destruct (show_issuance _); [by injection Hsh as <-|done].
  destruct (show_presentation (a_presentation (w_app w))) as [pv'|] eqn:Eis; [|done]. injection Hsh as <-. injection Hv as ->.
  destruct Hp as [[_ ?]|(r & p & Hr & Ei)]; [done|]. exists r. split; [done|]. rewrite Ei. split; [done|].
  rewrite Ei in Eis. unfold show_presentation in Eis. cbn [presentation_from ap_credentials ap_status] in Eis.
  destruct (mapM _ (ra_credentials r)) as [sl|] eqn:Eo; [|done]. injection Eis as <-. cbn [pv_credentials].
  split.
  - intros c Hc. destruct (list_to_map (reverse sl) !! kc_id c) eqn:E; [by eexists|]. exfalso.
    apply not_elem_of_list_to_map in E. destruct E. apply elem_of_list_fmap.
    destruct (show_credential c) as [s|] eqn:Es.
    + exists (kc_id c, s). split; [done|]. apply elem_of_reverse. apply (mapM_elem _ _ _ _ Eo). exists c. split; [done|]. by rewrite Es.
    + rewrite (mapM_none _ _ c Hc) in Eo; [done|]. by rewrite Es.
  - intros n s Hs'. apply elem_of_list_to_map_2 in Hs'. rewrite elem_of_reverse in Hs'. apply (mapM_elem _ _ _ _ Eo) in Hs' as (c & Hc & Hy).
    unfold show_credential in Hy. destruct (kc_display c) as [[|d t]|] eqn:Ed; unfold first_display in Hy; cbn in Hy; try discriminate Hy.
    injection Hy as <- <-. exists c, d, t. done.
Qed.
Print Assumptions C153_request_on_screen_partial.
(** The PIN goes to the library as the user gave it, and is shown. *)
Theorem C153_pin cx pin w w' es : perform cx (Pin pin true) w = (w', es) →
  ∃ e, es = [Call (LPin (as_id (a_issuance (w_app w))) pin); e] ∧ ∀ v iv, e = Shown v → v_issuance v = Some iv → iv_pin iv = Some pin.
Proof.
  cbn [perform calls emit fst snd map app w_app]. intros [= <- <-]. eexists. split; [done|]. intros v iv. unfold show.
  cbn [set_issuance a_sub_app a_issuance]. destruct (a_sub_app (w_app w)).
  - by intros [= <-].
  - destruct (mapM _ _); [by intros [= <-]|done].
  - unfold show_issuance. cbn [as_issuer as_offered as_pin as_tx_code]. destruct (show_offered _ _); [|done]. intros [= <-] [= <-]. done.
  - destruct (show_presentation _); [by intros [= <-]|done].
Qed.
Print Assumptions C153_pin.
(** The status shown of a presentation is the one the library gave. *)
Definition status_shown (s : presentation_status) (t : shown_status) : Prop :=
  (s = PInactive → t = ShownInactive) ∧ (s = PRequested → t = ShownRequested) ∧ (s = PAuthorized → t = ShownAuthorized) ∧
  (∀ e, s = PFailed e → t = ShownFailed).
Theorem C153_status cx k w v pv s : Shown v ∈ (perform cx k w).2 → v_presentation v = Some pv →
  (∃ t r, k = Request t (Some r) ∧ ra_status r = s) ∨ k = Authorize (Some s) → status_shown s (pv_status pv).
Proof.
  assert (∀ s, status_shown s (show_status s)) as Hs by (intros []; unfold status_shown; naive_solver).
  assert (∀ w l, Shown v ∈ (calls l (emit w)).2 → show (w_app w) = Some v) as He.
  { intros w' l. simpl. rewrite elem_of_app, elem_of_list_singleton. intros [(x & ? & _)%elem_of_list_fmap|E]; [done|]. destruct (show _); [by injection E as <-|done]. }
  assert (∀ a, show a = Some v → v_presentation v = Some pv → pv_status pv = show_status (ap_status (a_presentation a))) as Hp.
  { intros a. unfold show. destruct (a_sub_app a); [by intros [= <-]|destruct (mapM _ _); [by intros [= <-]|done]|destruct (show_issuance _); [by intros [= <-]|done]|].
    unfold show_presentation. destruct (mapM _ _); [|done]. intros [= <-] [= <-]. done. }
  intros Hv Hpv [(t & r & -> & <-)| ->]; cbn [perform] in Hv; unfold run_request in Hv; apply He in Hv; apply Hp in Hv; rewrite ?Hv; auto.
Qed.
Print Assumptions C153_status.
(** An issuance gets its token, then its credentials, then saves them; if it reports success, all of them were saved; *)
Theorem C153_saved cx saves told w w' es : perform cx (GetCredentials true true saves told) w = (w', es) →
  (∃ e id, es = [Call (LToken id); Call (LCredentials id); Call (LSave id); e]) ∧
  (Failed ∉ es → told = true ∧ (∀ c x, (c, x) ∈ saves → x = true) ∧ w_store w' = ws_run cx (map (λ p, WSave p.1 p.2) saves) (w_store w)).
Proof.
  assert (∀ s, (save_all cx saves s).2 = true → (∀ c x, (c, x) ∈ saves → x = true) ∧
    (save_all cx saves s).1 = ws_run cx (map (λ p, WSave p.1 p.2) saves) s) as Hs.
  { induction saves as [|[c x] l IH]; intros s; simpl.
    - intros _. split; [by intros ? ? ?%elem_of_nil|done].
    - destruct x; [|done]. intros H. destruct (IH _ H) as [H1 H2]. split; [|exact H2].
      intros c' x' [[= -> ->]|Hin]%elem_of_cons; [done|by eapply H1]. }
  cbn [perform]. unfold run_credentials. specialize (Hs (w_store w)). destruct (save_all cx saves (w_store w)) as [s b] eqn:E. cbn [fst snd] in Hs.
  assert (∀ w1, w_store (run_reset cx w1).1 = w_store w1 ∧ ∃ e, (run_reset cx w1).2 = [e] ∧ e ≠ Failed) as Hr.
  { intros w1. unfold run_reset. destruct (ws_list cx (w_store w1)); simpl; [|eauto]. split; [done|]. eexists. split; [done|]. by case_match. }
  intros H. unfold calls in H. injection H as <- <-. destruct (b && told) eqn:Eb.
  - destruct (Hr (Wallet (w_app w) s)) as (Hst & e & -> & He). split; [by eexists e, _|]. intros _. apply andb_true_iff in Eb as [-> ->].
    destruct (Hs eq_refl) as [H1 H2]. split; [done|]. split; [done|]. rewrite Hst. exact H2.
  - split; [by eexists _, _|]. simpl. intros Hn. destruct Hn. do 3 right. apply elem_of_list_here.
Qed.
Print Assumptions C153_saved.
(** a command for which the library has failed says so and leaves the screen; *)
Theorem C153_failure cx k w : k ∈ [Accept false; Authorize None; Present false] ∨ (∃ pin, k = Pin pin false) ∨ (∃ t, k = MakeOffer t None) ∨
    (∃ t, k = Request t None) ∨ (∃ got saves told, k = GetCredentials false got saves told) ∨ (∃ saves told, k = GetCredentials true false saves told) →
  Failed ∈ (perform cx k w).2 ∧ Panicked ∉ (perform cx k w).2 ∧ (∀ v, Shown v ∉ (perform cx k w).2) ∧ (perform cx k w).1 = w.
Proof.
  assert (∀ l, Failed ∈ (calls l (fails w)).2 ∧ Panicked ∉ (calls l (fails w)).2 ∧ (∀ v, Shown v ∉ (calls l (fails w)).2) ∧ (calls l (fails w)).1 = w) as H.
  { intros l. simpl. rewrite !elem_of_app. split; [right; apply elem_of_list_here|]. split; [|split; [|done]].
    - intros [(x & ? & _)%elem_of_list_fmap|E%elem_of_list_singleton]; done.
    - intros v. rewrite elem_of_app. intros [(x & ? & _)%elem_of_list_fmap|E%elem_of_list_singleton]; done. }
  intros [Hk|[[pin ->]|[[t ->]|[[t ->]|[(got & saves & told & ->)|(saves & told & ->)]]]]]; try apply H.
  - apply elem_of_list_In in Hk. destruct Hk as [<-|[<-|[<-|[]]]]; apply H.
  - cbn [perform]. unfold run_offer. destruct (read_offer t); [apply H|]. exact (H []).
Qed.
Print Assumptions C153_failure.
(** and after a flow has ended, or was left by a reset, the commands act on none. *)
Theorem C153_ended cx k0 w w1 k l : k0 ∈ [Reset; Present true] ∨ (∃ saves told, k0 = GetCredentials true true saves told) →
  (perform cx k0 w).1 = w1 → (∃ v, Shown v ∈ (perform cx k0 w).2) → Call l ∈ (perform cx k w1).2 →
  (∀ id, issuance_called l = Some id → id = "") ∧ (∀ id, presentation_called l = Some id → id = "").
Proof.
  assert (∀ cs w0, (∃ v, Shown v ∈ (calls cs (run_reset cx w0)).2) → a_issuance (w_app (run_reset cx w0).1) = no_issuance ∧
    a_presentation (w_app (run_reset cx w0).1) = no_presentation) as Hr.
  { intros cs w0 [v Hv]. simpl in Hv. apply elem_of_app in Hv as [(x & ? & _)%elem_of_list_fmap|Hv]; [done|]. revert Hv.
    unfold run_reset. destruct (ws_list cx (w_store w0)); [done|]. simpl. by intros ?%elem_of_list_singleton. }
  intros Hk <- Hv Hl. destruct (perform_call cx k _ l Hl) as [H1 H2].
  assert (a_issuance (w_app (perform cx k0 w).1) = no_issuance ∧ a_presentation (w_app (perform cx k0 w).1) = no_presentation) as [E1 E2].
  { destruct Hk as [Hk|(saves & told & ->)].
    - apply elem_of_list_In in Hk. destruct Hk as [<-|[<-|[]]]; cbn [perform] in *.
      + apply (Hr []). by destruct (run_reset cx w).
      + exact (Hr _ _ Hv).
    - cbn [perform] in *. unfold run_credentials in *. destruct (save_all cx saves (w_store w)) as [s b]. destruct (b && told); [exact (Hr _ _ Hv)|].
      destruct Hv as [v Hv]. simpl in Hv. repeat (apply elem_of_cons in Hv as [Hv|Hv]; [discriminate Hv|]). by apply elem_of_nil in Hv. }
  rewrite E1 in H1. rewrite E2 in H2. split; [intros id Hid; by rewrite (H1 id Hid)|intros id Hid; by rewrite (H2 id Hid)].
Qed.
Print Assumptions C153_ended.
Module Ex3.
  Definition config (d : option (list display_metadata)) : configuration_metadata :=
    ConfigurationMetadata (FJwtVcJson (CredentialDefinition None None None)) None None None None d.
  Definition offer_text : string := UrlModel.percent_encode (write ser_offer (CredentialOffer "https://issuer" ["EmployeeID_JWT"] None)).
  Definition shown_offer : offer_answer := OfferAnswer "flow1" "Acme" {["EmployeeID_JWT" := config (Some [Ex.named "Employee ID"])]} None.
  Definition plain_offer : offer_answer := OfferAnswer "flow2" "Mallory" {["Other" := config None]} None.
  Definition ks : list command := [MakeOffer offer_text (Some shown_offer); OpenLink (payload_of (offer_prefix +:+ offer_text)) (Some plain_offer) None].
  Definition request_answered : request_answer := RequestAnswer "p1" PRequested [Ex.employee].
End Ex3.
(** Refuted: with panics it is not.  An offer that came by a link and does not say how to display its credentials does not change the
    screen, but the next command accepts it. *)
Theorem C153_on_screen_refuted : ∃ cx st ks w tr v iv, session cx ks (Wallet app_default st) = (w, tr) ∧
  screen tr = Some v ∧ v_issuance v = Some iv ∧ iv_credentials iv !! "Other" = None ∧
  (∃ s, iv_credentials iv !! "EmployeeID_JWT" = Some s ∧ cd_issuer s = Some "Acme") ∧
  latest offer_taken tr Ex3.plain_offer ∧ oa_issuer Ex3.plain_offer = "Mallory" ∧ is_Some (oa_offered Ex3.plain_offer !! "Other") ∧
  (perform cx (Accept true) w).2 = [Call (LAccept (oa_id Ex3.plain_offer)); Panicked].
Proof.
  exists ex_cx, ws_empty, Ex3.ks. eexists _, _, _, _. split; [vm_compute; reflexivity|]. split; [vm_compute; reflexivity|].
  split; [reflexivity|]. split; [vm_compute; reflexivity|]. split; [eexists; split; vm_compute; reflexivity|].
  split; [|split; [done|split; [by eexists|vm_compute; reflexivity]]].
  eexists [_], _, []. split; [reflexivity|]. split; [vm_compute; reflexivity|]. by intros e' ?%elem_of_nil.
Qed.
Print Assumptions C153_on_screen_refuted.
Example C153_example : ∃ w tr v iv, session ex_cx [MakeOffer Ex3.offer_text (Some Ex3.shown_offer); Pin "123" true] (Wallet app_default ws_empty) = (w, tr) ∧
  (∀ e, e ∈ tr → Panicked ∉ e.2) ∧ screen tr = Some v ∧ v_issuance v = Some iv ∧ iv_pin iv = Some "123" ∧
  (perform ex_cx (Accept true) w).2 = [Call (LAccept "flow1"); Shown v].
Proof.
  eexists _, _, _, _. split; [vm_compute; reflexivity|]. split; [|split; [vm_compute; reflexivity|split; [reflexivity|split; vm_compute; reflexivity]]].
  intros e He. repeat (apply elem_of_cons in He as [->|He]; [simpl; rewrite !elem_of_cons, elem_of_nil; naive_solver|]). by apply elem_of_nil in He.
Qed.
Example C153_request_example : ∃ w tr v pv,
  session ex_cx [OpenLink (payload_of (request_prefix +:+ "http://verifier/request/1")) None (Some Ex3.request_answered); Authorize (Some PAuthorized)]
    (Wallet app_default ws_empty) = (w, tr) ∧
  (∀ e, e ∈ tr → Panicked ∉ e.2) ∧ screen tr = Some v ∧ v_presentation v = Some pv ∧ pv_status pv = ShownAuthorized ∧
  is_Some (pv_credentials pv !! "cred1") ∧ Call (LPresent "p1") ∈ (perform ex_cx (Present true) w).2.
Proof.
  eexists _, _, _, _. split; [vm_compute; reflexivity|]. split; [|split; [vm_compute; reflexivity|split; [reflexivity|split; [reflexivity|split]]]].
  - intros e He. repeat (apply elem_of_cons in He as [->|He]; [simpl; rewrite !elem_of_cons, elem_of_nil; naive_solver|]). by apply elem_of_nil in He.
  - vm_compute. by eexists.
  - vm_compute. apply elem_of_list_here.
Qed.
Example C153_saved_example : ∃ w tr v,
  session ex_cx [MakeOffer Ex3.offer_text (Some Ex3.shown_offer); Accept true; Pin "123" true] (Wallet app_default ws_empty) = (w, tr) ∧
  (perform ex_cx (GetCredentials true true [(Ex.employee, true)] true) w).2 =
    [Call (LToken "flow1"); Call (LCredentials "flow1"); Call (LSave "flow1"); Shown v] ∧
  (∃ d, v_credentials v = Some [d] ∧ cd_id d = "cred1") ∧
  (perform ex_cx (GetCredentials true true [(Ex.employee, false)] true) w).2 =
    [Call (LToken "flow1"); Call (LCredentials "flow1"); Call (LSave "flow1"); Failed] ∧
  (perform ex_cx (GetCredentials true false [(Ex.employee, true)] true) w).2 = [Call (LToken "flow1"); Call (LCredentials "flow1"); Failed] ∧
  Call (LAccept "") ∈ (perform ex_cx (Accept true) (perform ex_cx (GetCredentials true true [(Ex.employee, true)] true) w).1).2.
Proof.
  eexists _, _, _. split; [vm_compute; reflexivity|]. split; [vm_compute; reflexivity|]. split; [eexists; split; reflexivity|].
  split; [vm_compute; reflexivity|]. split; [vm_compute; reflexivity|]. vm_compute. apply elem_of_list_here.
Qed.

(** ** C154: links *)

(** The wallet takes a link for an offer, or for a request, exactly when it begins as the README says. *)
Theorem C154_links l t :
  (link_of (payload_of l) = OfferOf t ↔ l = "openid-credential-offer://?credential_offer=" +:+ t) ∧
  (link_of (payload_of l) = RequestOf t ↔ l = "openid-vc://request_uri=" +:+ t).
Proof. split; [exact (link_offer l t)|exact (link_request l t)]. Qed.
Print Assumptions C154_links.
(** An offer whose JSON is in a link, whatever is percent-encoded in it, is the offer the library is given, and a request
    is passed on as it is. *)
Theorem C154_offered cx o t w a r : readable_offer o → UrlModel.percent_decode t = write ser_offer o →
  ∃ es, (perform cx (OpenLink (payload_of ("openid-credential-offer://?credential_offer=" +:+ t)) a r) w).2 = Call (LOffer o) :: es.
Proof.
  intros Hr Ht. cbn [perform]. change "openid-credential-offer://?credential_offer=" with offer_prefix. rewrite (proj2 (link_offer _ t) eq_refl). unfold run_offer, read_offer. rewrite Ht, (offer_text o Hr).
  by eexists.
Qed.
Print Assumptions C154_offered.
Theorem C154_requested cx t w a r : ∃ es, (perform cx (OpenLink (payload_of ("openid-vc://request_uri=" +:+ t)) a r) w).2 = Call (LRequest t) :: es.
Proof. cbn [perform]. change "openid-vc://request_uri=" with request_prefix. rewrite (proj2 (link_request _ t) eq_refl). by eexists. Qed.
Print Assumptions C154_requested.
(** Refuted: the links that the issuer makes of its offers are not offers to the wallet, whatever the offer; *)
Theorem C154_issuer_refuted cx o w a r : (perform cx (OpenLink (payload_of (offer_link "openid-credential-offer://?credential_offer=" o)) a r) w) = (w, [Failed]).
Proof. cbn [perform]. change "openid-credential-offer://?credential_offer=" with offer_prefix. destruct (issuer_link_unread o) as (t & -> & Ht). unfold run_offer. by rewrite Ht. Qed.
Print Assumptions C154_issuer_refuted.
(** and with the prefixes that the library's documentation has for the issuer's and the verifier's links, or for offers by
    reference, nothing happens at all. *)
Theorem C154_documented_refuted cx t w a r p :
  p ∈ ["openid-credential-offer://credential_offer="; "openid-vc://?request_uri="; "openid-credential-offer://?credential_offer_uri="] →
  perform cx (OpenLink (payload_of (p +:+ t)) a r) w = (w, []).
Proof.
  intros Hp. cbn [perform]. destruct (link_of (payload_of (p +:+ t))) as [x|x|] eqn:E; [| |done]; exfalso.
  - apply link_offer in E. apply elem_of_list_In in Hp. destruct Hp as [<-|[<-|[<-|[]]]]; discriminate E.
  - apply link_request in E. apply elem_of_list_In in Hp. destruct Hp as [<-|[<-|[<-|[]]]]; discriminate E.
Qed.
Print Assumptions C154_documented_refuted.
Example C154_example :
  (perform ex_cx (OpenLink (payload_of (offer_prefix +:+ Ex3.offer_text)) None None) (Wallet app_default ws_empty)).2
    = [Call (LOffer (CredentialOffer "https://issuer" ["EmployeeID_JWT"] None)); Failed] ∧
  readable_offer (CredentialOffer "https://issuer" ["EmployeeID_JWT"] None) ∧
  (∃ q, offer_link offer_prefix (CredentialOffer "https://issuer" ["EmployeeID_JWT"] None) = offer_prefix +:+ String "c" q).
Proof. split; [vm_compute; reflexivity|]. split; [intros g p t n [=]|]. eexists. vm_compute. reflexivity. Qed.
