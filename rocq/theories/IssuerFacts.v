(** Paths of the issuer's endpoints. *)
From Verif Require Import Base Json CoreModel VcModel Prog ProgFacts IssuerTypes ClaimsModel
  Sha256 IssuerModel IssuerSpec.

Global Arguments bind : simpl never.
Global Arguments runs : simpl never.
Global Arguments wp : simpl never.
Global Arguments ok : simpl never.
Global Arguments fail : simpl never.
Global Arguments panic : simpl never.
Global Arguments ensure : simpl never.
Global Arguments of_opt : simpl never.

Lemma runs_xcall x es r : runs (xcall x) es (Ok r) ↔ es = [X (imk x r)].
Proof. apply (runs_ext (S:=ISig)). Qed.
Lemma runs_now es r : runs now es (Ok r) ↔ es = [X (VNow r)].
Proof. apply (runs_xcall XNow). Qed.
Lemma runs_gen g es r : runs (gen g) es (Ok r) ↔ es = [X (VGen g r)].
Proof. apply (runs_xcall (XGen g)). Qed.
Lemma runs_sget k es r : runs (sget k) es (Ok r) ↔ es = [Get k r].
Proof. apply (runs_get (S:=ISig)). Qed.
Lemma runs_sput k v exp e es u : runs (sput k v exp e) es (Ok u) ↔ es = [Put k v exp true].
Proof. apply (runs_put (S:=ISig)). Qed.
Lemma runs_spurge k e es u : runs (spurge k e) es (Ok u) ↔ es = [Purge k true].
Proof. apply (runs_purge (S:=ISig)). Qed.

Ltac iruns_step :=
  first [ runs_step
        | match goal with
          | H : runs (xcall _) _ (Ok _) |- _ => apply runs_xcall in H as ->; cbn [imk] in *
          | H : runs now _ (Ok _) |- _ => apply runs_now in H as ->
          | H : runs (gen _) _ (Ok _) |- _ => apply runs_gen in H as ->
          | H : runs (sget _) _ (Ok _) |- _ => apply runs_sget in H as ->
          | H : runs (sput _ _ _ _) _ (Ok _) |- _ => apply runs_sput in H as ->
          | H : runs (spurge _ _) _ (Ok _) |- _ => apply runs_spurge in H as ->
          end ].
Ltac icase :=
  match goal with
  | H : runs (match ?x with _ => _ end) _ (Ok _) |- _ => destruct x eqn:?
  | H : runs (if ?x then _ else _) _ (Ok _) |- _ => destruct x eqn:?
  end.
Ltac iruns := repeat (iruns_step || icase).
(** Split off the first statement of the run [H]. *)
Tactic Notation "iseq" hyp(H) "as" ident(a) ident(Hm) :=
  let es1 := fresh "es" in let es2 := fresh "es" in
  apply runs_bind_ok in H as (es1 & es2 & a & -> & Hm & H);
  try match type of Hm with
  | runs (xcall ?x) ?es (Ok ?r) =>
      apply (proj1 (runs_xcall x es r)) in Hm as ->; cbn [imk] in *
  | runs now _ _ => apply runs_now in Hm as ->
  | runs (gen _) _ _ => apply runs_gen in Hm as ->
  | runs (sget _) _ _ => apply runs_sget in Hm as ->
  | runs (sput _ _ _ _) _ _ => apply runs_sput in Hm as ->
  | runs (spurge _ _) _ _ => apply runs_spurge in Hm as ->
  | runs (ok _) _ _ => apply runs_ok in Hm as [-> Hm]
  | runs (ensure _ _) _ _ => apply runs_ensure in Hm as [-> Hm]
  | runs (of_opt _ _) _ _ => apply runs_of_opt in Hm as [-> Hm]
  | runs (lift _) _ _ => apply runs_lift in Hm as [-> Hm]
  end.
Ltac bools :=
  repeat match goal with
  | H : negb _ = true |- _ => apply negb_true_iff in H
  | H : negb _ = false |- _ => apply negb_false_iff in H
  | H : bool_decide _ = true |- _ => apply bool_decide_eq_true in H
  | H : bool_decide _ = false |- _ => apply bool_decide_eq_false in H
  | H : andb _ _ = true |- _ => apply andb_true_iff in H as [? ?]
  | H : orb _ _ = false |- _ => apply orb_false_iff in H as [? ?]
  | H : contains _ _ = true |- _ => unfold contains in H; apply bool_decide_eq_true in H
  | H : contains _ _ = false |- _ => unfold contains in H; apply bool_decide_eq_false in H
  end.

(** ** Loops *)

Lemma mapM_pure {A B} (f : A → iprog B) (P : A → B → Prop) l es bs :
  (∀ a es b, runs (f a) es (Ok b) → es = [] ∧ P a b) →
  runs (mapM_prog f l) es (Ok bs) → es = [] ∧ Forall2 P l bs.
Proof.
  intros Hf. revert es bs. induction l as [|a l IH]; intros es bs H; simpl in H; iruns; subst.
  - auto.
  - apply Hf in H0 as [-> H0]. apply IH in H1 as [-> H1]. auto.
Qed.

(** The call made to authorize an item. *)
Definition auth_ev (subject : string) (it : authorized_item) : ievent :=
  X (VAuthorize subject (ai_configuration_id it) (Some (ai_identifiers it))).

Lemma mapM_auth {A} (f : A → iprog authorized_item) subject (P : A → authorized_item → Prop) l es bs :
  (∀ a es b, runs (f a) es (Ok b) → es = [auth_ev subject b] ∧ P a b) →
  runs (mapM_prog f l) es (Ok bs) → es = map (auth_ev subject) bs ∧ Forall2 P l bs.
Proof.
  intros Hf. revert es bs. induction l as [|a l IH]; intros es bs H; simpl in H; iruns; subst.
  - auto.
  - apply Hf in H0 as [-> H0]. apply IH in H1 as [-> H1]. rewrite app_nil_r. auto.
Qed.

(** ** create_offer *)

Definition wants (r : create_offer_request) (g : grant_type) : bool :=
  contains (default [] (co_grant_types r)) g.

(** The item recorded for a configuration of an offer. *)
Definition offer_item_ok (config_id : string) (it : authorized_item) : Prop :=
  ai_item it = ItemDetail (AuthorizationDetail (ByConfigurationId config_id None) None) ∧
  ai_configuration_id it = config_id.

Lemma offer_authorize_ok r es items :
  runs (offer_authorize r) es (Ok items) →
  es = map (auth_ev (default "" (co_subject_id r))) items ∧
  Forall2 offer_item_ok (co_configuration_ids r) items.
Proof.
  unfold offer_authorize. apply mapM_auth. intros c es' it H. iruns. subst. done.
Qed.

Definition offer_for (r : create_offer_request) (code : string) (srv : option string)
  : credential_offer :=
  CredentialOffer (co_credential_issuer r) (co_configuration_ids r)
    (if wants r PreAuthorizedCode || wants r AuthorizationCode then
       Some (Grants
         (if wants r AuthorizationCode then Some (AuthorizationCodeGrant (Some code) srv) else None)
         (if wants r PreAuthorizedCode then
            Some (PreAuthorizedCodeGrant code
              (if co_tx_code_required r
               then Some (TxCodeSpec (Some "numeric") (Some 6%Z)
                            (Some "Please provide the one-time code received"))
               else None) srv) else None))
     else None).

Lemma make_credential_offer_ok iss r es o :
  runs (make_credential_offer iss r) es (Ok o) →
  ∃ code srv, es = [X (VGen GAuthCode code)] ∧ o = offer_for r code srv ∧
    match is_authorization_servers iss with
    | None => srv = None
    | Some l => srv = head l ∧ l ≠ []
    end.
Proof.
  unfold make_credential_offer, offer_for, wants. intros H. iruns; subst; eexists _, _;
    (split; [done|]); (split; [|done]); repeat case_match; simpl in *; congruence.
Qed.

Lemma has_key_keys {A} k (l : list (string * A)) : has_key k l = true ↔ k ∈ keys l.
Proof.
  unfold has_key, keys. induction l as [|[k' v] l IH]; simpl.
  - by rewrite elem_of_nil.
  - rewrite elem_of_cons. case_bool_decide; naive_solver.
Qed.

Lemma str_is_empty_true s : str_is_empty s = true ↔ s = "".
Proof. by destruct s. Qed.
Lemma str_is_empty_false s : str_is_empty s = false ↔ s ≠ "".
Proof. by destruct s. Qed.
Lemma forallb_elem {A} (f : A → bool) l : forallb f l = true ↔ ∀ x, x ∈ l → f x = true.
Proof.
  rewrite forallb_forall. setoid_rewrite elem_of_list_In. done.
Qed.
Lemma forallb_contains `{EqDecision A} (sup l : list A) :
  forallb (contains sup) l = true ↔ ∀ x, x ∈ l → x ∈ sup.
Proof.
  rewrite forallb_elem. unfold contains. by setoid_rewrite bool_decide_eq_true.
Qed.

(** The conditions [create_offer_verify] checks, as a boolean. *)
Definition offer_validb (iss : issuer) (srv : server) (r : create_offer_request) : bool :=
  negb (str_is_empty (co_credential_issuer r)) &&
  (match co_configuration_ids r with [] => false | _ => true end) &&
  forallb (λ id, has_key id (is_configurations iss)) (co_configuration_ids r) &&
  match co_grant_types r with
  | None => true
  | Some gs =>
      match sv_grant_types_supported srv with
      | Some supported => forallb (contains supported) gs
      | None => true
      end && negb (contains gs PreAuthorizedCode &&
                   match co_subject_id r with None => true | Some _ => false end)
  end.

Lemma offer_validb_spec iss srv r : offer_validb iss srv r = true ↔ offer_valid iss srv r.
Proof.
  unfold offer_validb, offer_valid. rewrite !andb_true_iff, negb_true_iff, str_is_empty_false.
  rewrite forallb_elem. setoid_rewrite has_key_keys.
  assert ((match co_configuration_ids r with [] => false | _ => true end) = true ↔
          co_configuration_ids r ≠ []) as -> by (by destruct (co_configuration_ids r)).
  assert ((match co_grant_types r with
  | None => true
  | Some gs =>
      match sv_grant_types_supported srv with
      | Some supported => forallb (contains supported) gs
      | None => true
      end && negb (contains gs PreAuthorizedCode &&
                   match co_subject_id r with None => true | Some _ => false end)
  end) = true ↔ (∀ gs, co_grant_types r = Some gs →
     (∀ sup g, sv_grant_types_supported srv = Some sup → g ∈ gs → g ∈ sup) ∧
     (PreAuthorizedCode ∈ gs → co_subject_id r ≠ None))) as ->; [|naive_solver].
  destruct (co_grant_types r) as [gs|]; [|naive_solver].
  rewrite andb_true_iff, negb_true_iff, andb_false_iff. unfold contains at 2.
  rewrite bool_decide_eq_false.
  split.
  - intros [H1 H2] ? [= <-]. split.
    + intros sup g Hs. rewrite Hs in H1. rewrite forallb_contains in H1. auto.
    + intros Hin. destruct H2 as [H2|H2]; [done|]. by destruct (co_subject_id r).
  - intros H. destruct (H gs eq_refl) as [H1 H2]. split.
    + destruct (sv_grant_types_supported srv) as [sup|]; [|done]. apply forallb_contains. eauto.
    + destruct (decide (PreAuthorizedCode ∈ gs)); [|by left]. right.
      destruct (co_subject_id r); [done|]. naive_solver.
Qed.

Lemma create_offer_verify_ok iss srv r es u :
  runs (create_offer_verify iss srv r) es (Ok u) → es = [] ∧ offer_validb iss srv r = true.
Proof.
  unfold create_offer_verify, offer_validb. intros H.
  iruns; (split; [done|]); repeat match goal with H : _ = true |- _ => rewrite H; clear H end;
  simpl; congruence.
Qed.

Lemma state_key_offer r code srv es key :
  wants r PreAuthorizedCode || wants r AuthorizationCode = true →
  runs (state_key (of_grants (offer_for r code srv))) es (Ok key) → es = [] ∧ key = code.
Proof.
  intros Hw. unfold offer_for. simpl. rewrite Hw. unfold state_key. simpl. intros H.
  iruns; subst; simplify_eq/=; destruct (wants r PreAuthorizedCode), (wants r AuthorizationCode);
    simplify_eq/=; done.
Qed.

Lemma create_offer_ok r es resp :
  runs (create_offer r) es (Ok resp) →
  ∃ iss srv code asrv es_tx tx es_st es_ref,
    es = [X (VIssuer (co_credential_issuer r) (Some iss));
          X (VServer (co_credential_issuer r) None (Some srv));
          X (VGen GAuthCode code)] ++ es_tx ++ es_st ++ es_ref ∧
    offer_validb iss srv r = true ∧
    match is_authorization_servers iss with
    | None => asrv = None
    | Some l => asrv = head l ∧ l ≠ []
    end ∧
    (if co_tx_code_required r && wants r PreAuthorizedCode
     then ∃ c, tx = Some c ∧ es_tx = [X (VGen GTxCode c)]
     else tx = None ∧ es_tx = []) ∧
    (if wants r PreAuthorizedCode || wants r AuthorizationCode
     then ∃ t items,
       es_st = match items with
               | Some its => map (auth_ev (default "" (co_subject_id r))) its
               | None => []
               end ++
               [X (VNow t);
                Put code (State (co_subject_id r) (Offered (Offer items tx)) (t + minutes 5)%Z)
                  (t + minutes 5)%Z true] ∧
       (if wants r PreAuthorizedCode
        then ∃ its, items = Some its ∧ Forall2 offer_item_ok (co_configuration_ids r) its
        else items = None)
     else es_st = []) ∧
    match co_send_type r with
    | ByVal => es_ref = [] ∧ resp = CreateOfferResponse (OfferObject (offer_for r code asrv)) tx
    | ByRef => ∃ tok t,
        es_ref = [X (VGen GUriToken tok); X (VNow t);
                  Put tok (State (co_subject_id r) (Pending (offer_for r code asrv))
                             (t + minutes 5)%Z) (t + minutes 5)%Z true] ∧
        resp = CreateOfferResponse
                 (OfferUri (co_credential_issuer r +:+ "/credential_offer/" +:+ tok)) tx
    end.
Proof.
  unfold create_offer. intros H.
  iseq H as iss' Hm. iseq H as iss Hiss. iseq H as srv' Hm. iseq H as srv Hsrv. subst. simpl.
  iseq H as u Hv. apply create_offer_verify_ok in Hv as [-> Hv].
  unfold create_offer_process in H.
  iseq H as o Ho. apply make_credential_offer_ok in Ho as (code & asrv & -> & -> & Has).
  apply runs_bind_ok in H as (es_tx & e5 & tx & -> & Htx & H).
  apply runs_bind_ok in H as (es_st & es_ref & u' & -> & Hst & H).
  eexists _, _, code, asrv, es_tx, tx, es_st, es_ref.
  split; [done|]. split; [done|]. split; [done|]. unfold wants. split_and!.
  - clear H Hst. iruns; subst; eauto.
  - clear H Htx. destruct (_ || _) eqn:Hw; [|by iruns].
    apply runs_bind_ok in Hst as (e6 & e7 & items & -> & Hi & Hst).
    apply runs_bind_ok in Hst as (e8 & e9 & key & -> & Hk & Hst).
    apply state_key_offer in Hk as [-> ->]; [|done].
    iseq Hst as t Hm. apply runs_sput in Hst as ->.
    destruct (contains _ PreAuthorizedCode).
    + iseq Hi as its Hits. apply runs_ok in Hi as [-> <-]. apply offer_authorize_ok in Hits as [-> Hits].
      exists t, (Some its). split; [by rewrite app_nil_r|]. eauto.
    + apply runs_ok in Hi as [-> <-]. exists t, None. eauto.
  - iruns; subst; eauto.
Qed.

(** ** credential_offer *)

Lemma credential_offer_ok r es o :
  runs (credential_offer_endpoint r) es (Ok o) →
  ∃ st t, es = [Get (cof_id r) (Some st); Purge (cof_id r) true; X (VNow t)] ∧
    is_expired st t = false ∧ s_stage st = Pending o ∧
    of_credential_issuer o = cof_credential_issuer r.
Proof.
  unfold credential_offer_endpoint. intros H. iruns; subst. bools. eexists _, _. eauto.
Qed.

(** ** authorize *)

Lemma check_scopes_ok cl srv es u :
  runs (check_scopes cl srv) es (Ok u) →
  es = [] ∧ ∃ sc sup, cl_scope cl = Some sc ∧ sv_scopes_supported srv = Some sup ∧
    forallb (contains sup) (split_whitespace sc) = true.
Proof. unfold check_scopes. intros H. iruns. eauto 8. Qed.

(** What the verification of the details computes, when it succeeds. *)
Definition details_checked (iss : issuer) (d : authorization_detail) (config_id : string) : Prop :=
  ∃ claims, requested_credential iss (ad_credential d) = Some (config_id, claims) ∧
    ∀ cs, claims = Some cs → ∃ cfg, assoc config_id (is_configurations iss) = Some cfg ∧
      verify_claims cfg cs = true.

Lemma verify_authorization_details_ok iss l acc es res :
  runs (verify_authorization_details iss l acc) es (Ok res) →
  es = [] ∧ ∃ ids, Forall2 (details_checked iss) l ids ∧
    res = foldl (λ m p, ainsert p.1 p.2 m) acc (zip ids l).
Proof.
  revert acc es. induction l as [|d l IH]; intros acc es H; simpl in H.
  - iruns. subst. split; [done|]. exists []. auto.
  - iseq H as p Hp. destruct p as [config_id claims]. iseq H as u Hc.
    apply IH in H as [-> (ids & Hids & ->)].
    destruct claims as [cs|]; iruns; subst; (split; [done|]); exists (config_id :: ids);
      (split; [|done]); constructor; try done; eexists; (split; [done|]); intros; simplify_eq; eauto.
Qed.

Lemma verify_scope_ok iss s dets es res :
  runs (verify_scope iss s dets) es (Ok res) →
  es = [] ∧ match split_whitespace s with
            | [] => res = []
            | item :: _ => res = scope_configurations item dets (is_configurations iss) ∧ res ≠ []
            end.
Proof.
  unfold verify_scope. intros H. destruct (split_whitespace s); iruns; subst; [done|].
  split; [done|]. split; [done|]. by destruct (scope_configurations _ _ _).
Qed.

(** Everything the authorization endpoint checks about a request, given what it
    looked up. *)
Record authz_checked (iss : issuer) (cl : client) (srv : server) (r : request_object)
    (ctx : authz_context) : Prop := AuthzChecked {
  azc_response_server : ro_response_type r ∈ sv_response_types_supported srv;
  azc_scopes : ∃ sc sup, cl_scope cl = Some sc ∧ sv_scopes_supported srv = Some sup ∧
      ∀ x, x ∈ split_whitespace sc → x ∈ sup;
  azc_grant_client : AuthorizationCode ∈ default [] (cl_grant_types cl);
  azc_grant_server : AuthorizationCode ∈ default [] (sv_grant_types_supported srv);
  azc_subject : ro_subject_id r ≠ "";
  azc_requested : ¬ (ro_authorization_details r = None ∧ ro_scope r = None);
  azc_details : match ro_authorization_details r with
      | None => ac_auth_dets ctx = []
      | Some l => ∃ ids, Forall2 (details_checked iss) l ids ∧
          ac_auth_dets ctx = foldl (λ m p, ainsert p.1 p.2 m) [] (zip ids l)
      end;
  azc_scope_items : match ro_scope r with
      | None => ac_scope_items ctx = []
      | Some s => match split_whitespace s with
          | [] => ac_scope_items ctx = []
          | item :: _ => ac_scope_items ctx =
              scope_configurations item (ac_auth_dets ctx) (is_configurations iss) ∧
              ac_scope_items ctx ≠ []
          end
      end;
  azc_redirect : ∃ u us, ro_redirect_uri r = Some u ∧ cl_redirect_uris cl = Some us ∧ u ∈ us;
  azc_response_client : ro_response_type r ∈ default [] (cl_response_types cl);
  azc_method : ro_code_challenge_method r ∈ default [] (sv_code_challenge_methods_supported srv);
  azc_challenge : 43 ≤ String.length (ro_code_challenge r) ≤ 128;
}.

Lemma authorize_verify_ok iss is_par r es ctx :
  runs (authorize_verify iss is_par r) es (Ok ctx) →
  ∃ cl srv es_s,
    es = [X (VClient (ro_client_id r) (Some cl));
          X (VServer (ro_credential_issuer r) None (Some srv))] ++ es_s ∧
    (sv_require_par srv = Some true → is_par = true) ∧
    authz_checked iss cl srv r ctx ∧
    match ro_issuer_state r with
    | None => es_s = []
    | Some k => ∃ st t, es_s = [Get k (Some st); X (VNow t)] ∧ is_expired st t = false ∧
        s_subject_id st = Some (ro_subject_id r)
    end.
Proof.
  unfold authorize_verify. intros H.
  iseq H as cl' Hm. iseq H as cl Hcl. iseq H as srv' Hm. iseq H as srv Hsrv. subst. simpl.
  iseq H as u Hpar. iseq H as u1 Hrt. iseq H as u2 Hsc.
  apply check_scopes_ok in Hsc as (-> & sc & sup & Hsc1 & Hsc2 & Hsc3).
  iseq H as u3 Hgc. iseq H as u4 Hgs. iseq H as u5 Hsub.
  apply runs_bind_ok in H as (es_s & e8 & u6 & -> & Hst & H).
  iseq H as u7 Hreq.
  apply runs_bind_ok in H as (e1 & e10 & dets & -> & Hdets & H).
  apply runs_bind_ok in H as (e1' & e11 & items & -> & Hitems & H).
  iseq H as ru Hru. iseq H as rus Hrus. iseq H as u8 Hin. iseq H as u9 Hrc. iseq H as u10 Hrs.
  iseq H as u11 Hcm. iseq H as u12 Hcc. apply runs_ok in H as [-> <-].
  rewrite forallb_contains in Hsc3. bools.
  assert (e1 = [] ∧ match ro_authorization_details r with
      | None => dets = []
      | Some l => ∃ ids, Forall2 (details_checked iss) l ids ∧
          dets = foldl (λ m p, ainsert p.1 p.2 m) [] (zip ids l)
      end) as [-> Hd].
  { destruct (ro_authorization_details r); [by apply verify_authorization_details_ok in Hdets|].
    by iruns. }
  assert (e1' = [] ∧ match ro_scope r with
      | None => items = []
      | Some s => match split_whitespace s with
          | [] => items = []
          | item :: _ => items = scope_configurations item dets (is_configurations iss) ∧ items ≠ []
          end
      end) as [-> Hi].
  { destruct (ro_scope r); [by apply verify_scope_ok in Hitems|]. by iruns. }
  eexists _, _, es_s. split; [simpl; by rewrite app_nil_r|].
  split; [|split; [constructor; simpl; try done|]].
  - intros Hreqp. rewrite Hreqp in Hpar. simpl in Hpar. by destruct is_par.
  - eauto 8.
  - by apply str_is_empty_false.
  - intros [H1' H2']. by rewrite H1', H2' in Hreq.
  - eauto 8.
  - match goal with H : Nat.ltb _ 43 = false |- _ => apply Nat.ltb_ge in H end.
    match goal with H : Nat.ltb 128 _ = false |- _ => apply Nat.ltb_ge in H end. lia.
  - destruct (ro_issuer_state r); iruns; subst; bools; eauto 8.
Qed.

Lemma permute_perm {A} ix (l : list A) : permute ix l ≡ₚ l.
Proof.
  unfold permute. case_bool_decide as H; [|done]. rewrite (omap_Permutation (λ i, l !! i) _ _ H).
  clear H ix. induction l as [|x l IH] using rev_ind; [done|].
  rewrite app_length. simpl. rewrite Nat.add_1_r, seq_S, omap_app. simpl.
  rewrite list_lookup_middle by done. f_equiv. rewrite <-IH at 2.
  assert (∀ k, k ≤ length l →
    omap (λ i, (l ++ [x]) !! i) (seq 0 k) = omap (λ i, l !! i) (seq 0 k)) as Heq.
  { intros k Hk. induction k as [|k IHk]; [done|]. rewrite seq_S, !omap_app, IHk by lia.
    simpl. rewrite lookup_app_l by lia. done. }
  by rewrite Heq.
Qed.

Lemma iterate_ok {A} (l : list A) es l' :
  runs (iterate l) es (Ok l') →
  ∃ ix, es = [X (VOrder (length l) ix)] ∧ l' = permute ix l.
Proof. unfold iterate. intros H. iruns. subst. eauto. Qed.

Definition item_for {A} (mk : A → item_type) (p : string * A) (it : authorized_item) : Prop :=
  ai_item it = mk p.2 ∧ ai_configuration_id it = p.1.

Lemma authorize_items_ok {A} subject (mk : A → item_type) l es items :
  runs (authorize_items subject mk l) es (Ok items) →
  es = map (auth_ev subject) items ∧ Forall2 (item_for mk) l items.
Proof.
  unfold authorize_items. apply mapM_auth. intros p es' it H. iruns. subst. done.
Qed.

Lemma authorize_process_ok ctx r es resp :
  runs (authorize_process ctx r) es (Ok resp) →
  ∃ ix1 ix2 items1 items2 t code es_p,
    es = [X (VOrder (length (ac_auth_dets ctx)) ix1)] ++ map (auth_ev (ro_subject_id r)) items1 ++
         [X (VOrder (length (ac_scope_items ctx)) ix2)] ++ map (auth_ev (ro_subject_id r)) items2 ++
         [X (VNow t); X (VGen GAuthCode code);
          Put code (State (Some (ro_subject_id r))
              (StAuthorized (Authorization (ro_client_id r) (ro_redirect_uri r)
                 (ro_code_challenge r) (ro_code_challenge_method r) (items1 ++ items2)))
              (t + minutes 5)%Z) (t + minutes 5)%Z true] ++ es_p ∧
    Forall2 (item_for ItemDetail) (permute ix1 (ac_auth_dets ctx)) items1 ∧
    Forall2 (item_for ItemScope) (permute ix2 (ac_scope_items ctx)) items2 ∧
    items1 ++ items2 ≠ [] ∧
    es_p = match ro_issuer_state r with None => [] | Some k => [Purge k true] end ∧
    resp = AuthorizationResponse code (ro_state r) (default "" (ro_redirect_uri r)).
Proof.
  unfold authorize_process. intros H.
  iseq H as l1 Hl1. apply iterate_ok in Hl1 as (ix1 & -> & ->).
  iseq H as items1 Hi1. apply authorize_items_ok in Hi1 as [-> Hi1].
  iseq H as l2 Hl2. apply iterate_ok in Hl2 as (ix2 & -> & ->).
  iseq H as items2 Hi2. apply authorize_items_ok in Hi2 as [-> Hi2].
  iseq H as u Hne. iseq H as t Hm. iseq H as code Hm. iseq H as u1 Hm.
  apply runs_bind_ok in H as (es_p & e & u2 & -> & Hp & H). apply runs_ok in H as [-> <-].
  exists ix1, ix2, items1, items2, t, code, es_p. split_and!.
  - cbn [app]. by rewrite app_nil_r.
  - done.
  - done.
  - by destruct (items1 ++ items2).
  - destruct (ro_issuer_state r); by iruns.
  - done.
Qed.

Lemma authorize_ok a es resp :
  runs (authorize a) es (Ok resp) →
  ∃ is_par r es_r iss ctx es_v es_p,
    es = es_r ++ [X (VIssuer (ro_credential_issuer r) (Some iss))] ++ es_v ++ es_p ∧
    match a with
    | ARObject r' => r = r' ∧ is_par = false ∧ es_r = []
    | ARUri u => is_par = true ∧ ∃ st exp t, es_r = [Get u (Some st); X (VNow t)] ∧
        s_stage st = PushedAuthorization r exp ∧ (t ≤ exp)%Z
    end ∧
    runs (authorize_verify iss is_par r) es_v (Ok ctx) ∧
    runs (authorize_process ctx r) es_p (Ok resp).
Proof.
  unfold authorize. intros H.
  apply runs_bind_ok in H as (es_r & e2 & p & -> & Hr & H). destruct p as [is_par r].
  iseq H as iss' Hm. iseq H as iss Hiss. subst.
  apply runs_bind_ok in H as (es_v & es_p & ctx & -> & Hv & H).
  exists is_par, r, es_r, iss, ctx, es_v, es_p. split; [done|]. split; [|done].
  clear Hv H. destruct a as [u|r']; iruns; simplify_eq.
  - split; [done|]. eexists _, _, _. split; [done|]. split; [done|]. bools.
    match goal with H : Z.ltb _ _ = false |- _ => apply Z.ltb_ge in H end. lia.
  - done.
Qed.

Lemma par_ok r es resp :
  runs (par r) es (Ok resp) →
  ∃ iss es_v ctx tok t1 t2,
    es = [X (VIssuer (ro_credential_issuer r) (Some iss))] ++ es_v ++
         [X (VGen GUriToken tok); X (VNow t1); X (VNow t2);
          Put ("urn:ietf:params:oauth:request_uri:" +:+ tok)
            (State None (PushedAuthorization r (t1 + seconds 600)%Z) (t2 + seconds 600)%Z)
            (t2 + seconds 600)%Z true] ∧
    runs (authorize_verify iss false r) es_v (Ok ctx) ∧
    resp = ParResponse ("urn:ietf:params:oauth:request_uri:" +:+ tok) 600.
Proof.
  unfold par. intros H. iseq H as iss' Hm. iseq H as iss Hiss. subst.
  apply runs_bind_ok in H as (es_v & es_p & ctx & -> & Hv & H).
  unfold par_process in H. iseq H as tok Hm. iseq H as t1 Hm. iseq H as t2 Hm. iseq H as u Hm.
  apply runs_ok in H as [-> <-].
  exists iss, es_v, ctx, tok, t1, t2. done.
Qed.

(** ** token *)

Definition detail_matched (iss : issuer) (items : list authorized_item)
    (d : authorization_detail) (it : authorized_item) : Prop :=
  find_item (ad_credential d) items = Some it ∧
  ∃ id claims, requested_credential iss (ad_credential d) = Some (id, claims) ∧
    ∀ cs, claims = Some cs → ∃ cfg, assoc id (is_configurations iss) = Some cfg ∧
      verify_claims cfg cs = true.

Lemma token_verify_claims_ok iss c es u :
  runs (token_verify_claims iss c) es (Ok u) →
  es = [] ∧ ∃ id claims, requested_credential iss c = Some (id, claims) ∧
    ∀ cs, claims = Some cs → ∃ cfg, assoc id (is_configurations iss) = Some cfg ∧
      verify_claims cfg cs = true.
Proof.
  unfold token_verify_claims. intros H. iseq H as p Hp. destruct p as [id claims].
  iruns; subst; (split; [done|]); eexists _, _; (split; [done|]); intros; simplify_eq; eauto.
Qed.

Lemma retain_details_ok r items es items' :
  runs (retain_details r items) es (Ok items') →
  match tr_authorization_details r with
  | None => es = [] ∧ items' = items
  | Some ds => ∃ iss, es = [X (VIssuer (tr_credential_issuer r) (Some iss))] ∧
      Forall2 (detail_matched iss items) ds items'
  end.
Proof.
  unfold retain_details. intros H. destruct (tr_authorization_details r) as [ds|]; [|by iruns].
  iseq H as iss' Hm. iseq H as iss Hiss. subst.
  apply (mapM_pure _ (detail_matched iss items)) in H as [-> H]; [eauto|].
  intros d es b Hd. destruct (find_item _ _) eqn:Hf; [|by iruns].
  iseq Hd as u Hu. apply token_verify_claims_ok in Hu as [-> Hu]. iruns. subst.
  split; [done|]. by split.
Qed.

(** What the token endpoint checks about the grant. *)
Definition grant_checked (st : state) (srv : server) (gts : list grant_type) (r : token_request) : Prop :=
  match tr_grant r with
  | TGPreAuthorizedCode _ tx =>
      ∃ o id, s_stage st = Offered o ∧ PreAuthorizedCode ∈ gts ∧ tr_client_id r = Some id ∧
        (id = "" → sv_anonymous_access srv = true) ∧ tx = off_tx_code o
  | TGAuthorizationCode _ u v =>
      ∃ a cv, s_stage st = StAuthorized a ∧ AuthorizationCode ∈ gts ∧
        tr_client_id r = Some (az_client_id a) ∧ u = az_redirect_uri a ∧ v = Some cv ∧
        code_challenge cv = az_code_challenge a
  end.

(** The items a token is issued for. *)
Definition token_items (st : state) (r : token_request) (es : list ievent)
    (items : list authorized_item) : Prop :=
  match tr_grant r with
  | TGPreAuthorizedCode _ _ =>
      ∃ o its, s_stage st = Offered o ∧ off_items o = Some its ∧
        match tr_authorization_details r with
        | None => es = [] ∧ items = its
        | Some ds => ∃ iss, es = [X (VIssuer (tr_credential_issuer r) (Some iss))] ∧
            Forall2 (detail_matched iss its) ds items
        end
  | TGAuthorizationCode _ _ _ => ∃ a, s_stage st = StAuthorized a ∧ items = az_items a ∧ es = []
  end.

Lemma token_ok r es resp :
  runs (token r) es (Ok resp) →
  ∃ st t srv gts id cl items es_i tok nonce t2,
    let key := token_state_key (tr_grant r) in
    es = [Get key (Some st); Purge key true; X (VNow t);
          X (VServer (tr_credential_issuer r) None (Some srv)); X (VClient id (Some cl))] ++ es_i ++
         [X (VGen GToken tok); X (VGen GNonce nonce); X (VNow t2);
          Put tok (State (s_subject_id st)
             (Validated (Token tok nonce (t2 + minutes 10)%Z (authorized_credentials items)))
             (s_expires_at st)) (s_expires_at st) true] ∧
    is_expired st t = false ∧ sv_grant_types_supported srv = Some gts ∧ grant_checked st srv gts r ∧
    tr_client_id r = Some id ∧
    (∃ sc sup, cl_scope cl = Some sc ∧ sv_scopes_supported srv = Some sup ∧
       forallb (contains sup) (split_whitespace sc) = true) ∧
    token_items st r es_i items ∧
    resp = TokenResponse tok 900 (Some nonce) (Some 600%Z) (authorized_details items).
Proof.
  unfold token. intros H. iseq H as st' Hm. iseq H as st Hst. subst. iseq H as u Hm.
  apply runs_bind_ok in H as (es_v & es_p & u1 & -> & Hv & H).
  unfold token_verify in Hv.
  iseq Hv as t Hm. iseq Hv as u2 Hexp. iseq Hv as srv' Hm. iseq Hv as srv Hsrv. subst.
  iseq Hv as gts Hgts.
  apply runs_bind_ok in Hv as (es_g & es_c & u3 & -> & Hg & Hv).
  assert (es_g = [] ∧ grant_checked st srv gts r) as [-> Hgc].
  { clear Hv H. unfold grant_checked. destruct (tr_grant r); iruns; subst; bools; (split; [done|]).
    - eexists _, _. split_and!; try done. congruence.
    - destruct (tr_client_id r) as [id|]; [|done]. eexists _, id.
      split_and!; try done. intros ->. simpl in *. by destruct (sv_anonymous_access srv). }
  assert (∃ id, tr_client_id r = Some id) as [id Hid].
  { unfold grant_checked in Hgc. destruct (tr_grant r); naive_solver. }
  rewrite Hid in Hv. iseq Hv as cl' Hm. iseq Hv as cl Hcl. subst.
  apply check_scopes_ok in Hv as [-> Hsc].
  unfold token_process in H. apply runs_bind_ok in H as (es_i & es_t & items & -> & Hi & H).
  iseq H as tok Hm. iseq H as nonce Hm. iseq H as t2 Hm. iseq H as u4 Hm.
  apply runs_ok in H as [-> <-].
  exists st, t, srv, gts, id, cl, items, es_i, tok, nonce, t2. simpl. bools.
  split_and!; try done. unfold token_items. clear Hgc. destruct (tr_grant r).
  - iruns. subst. eauto.
  - destruct (s_stage st) as [| |o| | | | |]; try by iruns. iseq Hi as its Hits.
    apply retain_details_ok in Hi. eauto 8.
Qed.

(** ** credential *)

Definition credential_selected (iss : issuer) (tok : token_state) (c : credential_issuance)
    (es : list ievent) (auth : authorized) : Prop :=
  match c with
  | CIIdentifier id => es = [] ∧ assoc id (tk_credentials tok) = Some auth
  | CIFormat f => ∃ cid ix, configuration_id_for iss f = Some cid ∧
      es = [X (VOrder (length (tk_credentials tok)) ix)] ∧
      find_authorized cid (permute ix (tk_credentials tok)) = Some auth
  end.

Lemma credential_authorized_ok st iss r es auth :
  runs (credential_authorized st iss r) es (Ok auth) →
  ∃ tok, s_stage st = Validated tok ∧ credential_selected iss tok (cr_credential r) es auth.
Proof.
  unfold credential_authorized, credential_selected. intros H.
  destruct (s_stage st); try by iruns.
  exists t. split; [done|]. destruct (cr_credential r); iruns; subst; [done|].
  apply iterate_ok in H2 as (ix & -> & ->). eauto.
Qed.

(** The decoding of a proof that was accepted. *)
Definition proof_ev (nonce : string) (jwt : string) (e : ievent) : Prop :=
  ∃ p kid, e = X (VDecodeProof jwt (Some p)) ∧ pj_typ_is_proof p = true ∧
    pj_nonce p = Some nonce ∧ pj_kid p = Some kid.

Definition ev_did (e : ievent) : string :=
  match e with
  | EExt (VDecodeProof _ (Some p)) => before_char "#" (default "" (pj_kid p))
  | _ => ""
  end.

Lemma reject_proof_ok {A} st hint es (a : A) : ¬ runs (reject_proof st hint) es (Ok a).
Proof. unfold reject_proof. intros H. iruns. Qed.

Lemma verify_proofs_ok st nonce jwts did0 es did :
  runs (verify_proofs st nonce jwts did0) es (Ok did) →
  Forall2 (proof_ev nonce) jwts es ∧ did = default did0 (ev_did <$> last es).
Proof.
  revert did0 es. induction jwts as [|jwt jwts IH]; intros did0 es H; simpl in H.
  - iruns. subst. auto.
  - iseq H as d Hd. destruct d as [p|]; [|by apply reject_proof_ok in H].
    destruct (pj_typ_is_proof p) eqn:Ht; simpl in H; [|by apply reject_proof_ok in H].
    case_bool_decide as Hn; simpl in H; [|by apply reject_proof_ok in H].
    destruct (pj_kid p) as [kid|] eqn:Hk; [|by apply reject_proof_ok in H].
    apply IH in H as [Hf ->]. split.
    + constructor; [|done]. exists p, kid. done.
    + simpl app. rewrite last_cons. destruct (last _); simpl; [done|]. by rewrite Hk.
Qed.

(** The proof part of the checks of the credential endpoint. *)
Definition proof_checked (cfg : credential_configuration) (tok : token_state)
    (proof : option key_proof) (es : list ievent) (did : string) : Prop :=
  match cc_proof_types cfg with
  | None => es = [] ∧ did = ""
  | Some ts => "jwt" ∈ ts ∧ ∃ pr, proof = Some pr ∧
      Forall2 (proof_ev (tk_c_nonce tok))
        (match pr with PSingle jwt => [jwt] | PMultiple jwts => jwts end) es ∧
      did = default "" (ev_did <$> last es)
  end.

Lemma credential_verify_ok st tok cfg r es did :
  s_stage st = Validated tok →
  runs (credential_verify st cfg r) es (Ok did) →
  ∃ t1 t2 es_p, es = [X (VNow t1); X (VNow t2)] ++ es_p ∧
    is_expired st t1 = false ∧ c_nonce_expired tok t2 = false ∧
    proof_checked cfg tok (cr_proof r) es_p did.
Proof.
  unfold credential_verify, proof_checked. intros Hs H. rewrite Hs in H.
  iseq H as t1 Hm. iseq H as u Hexp. iseq H as t2 Hm. iseq H as u1 Hn.
  eexists t1, t2, _. bools. split_and!; [done..|].
  destruct (cc_proof_types cfg) as [ts|]; [|by iruns].
  destruct (cr_proof r) as [pr|]; [|by apply reject_proof_ok in H].
  iseq H as u2 Hj. bools. split; [done|]. exists pr. split; [done|].
  by apply verify_proofs_ok in H.
Qed.

Definition narrow (auth : authorized) (c : credential_issuance) (claims : list (string * json))
  : list (string * json) :=
  let claims1 := match au_claim_ids auth with
                 | Some ids => retain_claims ids claims
                 | None => claims
                 end in
  match c with
  | CIFormat f => match format_claims f with
                  | Some cs => retain_claims (keys cs) claims1
                  | None => claims1
                  end
  | CIIdentifier _ => claims1
  end.

Lemma credential_dataset_ok st auth r es ds :
  runs (credential_dataset st auth r) es (Ok ds) →
  ∃ subj ds0, s_subject_id st = Some subj ∧
    es = [X (VDataset subj (au_identifier auth) (Some ds0))] ∧
    ds = Dataset (narrow auth (cr_credential r) (ds_claims ds0)) (ds_pending ds0).
Proof.
  unfold credential_dataset, narrow. intros H. iruns. subst. eexists _, _.
  split; [done|]. split; [done|]. done.
Qed.

(** The credential built for a [jwt_vc_json] configuration. *)
Definition vc_for (iss : issuer) (cfg : credential_configuration) (ctype holder : string)
    (status : option (quota credential_status)) (claims : list (string * json)) : outcome string vc :=
  let credential_issuer := is_credential_issuer iss in
  let '(name, description) := match cc_display cfg with
                              | Some l => create_names l
                              | None => (None, None)
                              end in
  vcb_build
    (vcb_status status
    (vcb_add_subject (CredentialSubject (Some holder) claims)
    (vcb_issuer credential_issuer
    (vcb_add_description description
    (vcb_add_name name
    (vcb_add_type ctype
    (vcb_id (credential_issuer +:+ "/credentials/" +:+ ctype)
    (vcb_add_context (KString (credential_issuer +:+ "/credentials/v1")) vcb_new)))))))).

(** The calls that build and sign the credential. *)
Definition issued_by (st : state) (iss : issuer) (cfg : credential_configuration) (did : string)
    (signer : string) (claims : list (string * json)) (date : Z) (es : list ievent)
    (jwt : string) : Prop :=
  match cc_format cfg with
  | FJwtVcJson def => ∃ types ctype subj status v vcl,
      cd_type def = Some types ∧ types !! 1%nat = Some ctype ∧ s_subject_id st = Some subj ∧
      vc_for iss cfg ctype did status claims = Ok v ∧
      vc_claims_from v (timestamp date) = @Ok error _ vcl ∧
      es = [X (VStatus subj "credential_identifier" (Some status)); X (VSignVc signer vcl (Some jwt))]
  | FIsoMdl _ _ => es = [X (VSignMdl signer claims (Some jwt))]
  | _ => False
  end.

Lemma w3c_vc_ok st iss cfg did def ds es v :
  runs (w3c_vc st iss cfg did def ds) es (Ok v) →
  ∃ types ctype subj status,
    cd_type def = Some types ∧ types !! 1%nat = Some ctype ∧ s_subject_id st = Some subj ∧
    es = [X (VStatus subj "credential_identifier" (Some status))] ∧
    vc_for iss cfg ctype did status (ds_claims ds) = Ok v.
Proof.
  unfold w3c_vc, vc_for. intros H. iseq H as types Ht. iseq H as ctype Hc. iseq H as subj Hs.
  iseq H as status' Hm. iseq H as status Hst. subst.
  exists types, ctype, subj, status.
  destruct (match cc_display cfg with Some l => create_names l | None => (None, None) end) as [n d].
  destruct (vcb_build _) eqn:Hb; iruns. subst. done.
Qed.

Lemma issue_response_ok st tok iss cfg did r ds es resp :
  s_stage st = Validated tok →
  runs (issue_response st iss cfg did r ds) es (Ok resp) →
  ∃ t0 es_b jwt t1 nonce t2 nid t3,
    let tok' := Token (tk_access_token tok) nonce (t2 + minutes 10)%Z (tk_credentials tok) in
    let st' := State (s_subject_id st) (Validated tok') (t1 + minutes 15)%Z in
    es = [X (VNow t0); X (VSigner (cr_credential_issuer r) true)] ++ es_b ++
         [X (VNow t1); X (VGen GNonce nonce); X (VNow t2);
          Put (tk_access_token tok) st' (t1 + minutes 15)%Z true;
          X (VGen GNotificationId nid); Put nid st' (t1 + minutes 15)%Z true; X (VNow t3)] ∧
    issued_by st iss cfg did (cr_credential_issuer r) (ds_claims ds) t0 es_b jwt ∧
    resp = CredentialResponse (CRCredential (KString jwt)) (Some nonce)
             (Some (num_seconds (t2 + minutes 10 - t3))) (Some nid).
Proof.
  unfold issue_response. intros Hs H. rewrite Hs in H.
  iseq H as t0 Hm. iseq H as sg Hm. iseq H as u Hsg. subst.
  apply runs_bind_ok in H as (es_b & e & resp' & -> & Hb & H).
  iseq H as t1 Hm. iseq H as nonce Hm. iseq H as t2 Hm. iseq H as u1 Hm. iseq H as nid Hm.
  iseq H as u2 Hm. iseq H as t3 Hm. apply runs_ok in H as [-> <-].
  assert (∃ jwt, resp' = CRCredential (KString jwt) ∧
    issued_by st iss cfg did (cr_credential_issuer r) (ds_claims ds) t0 es_b jwt) as (jwt & -> & Hi).
  { unfold issued_by. destruct (cc_format cfg); try by iruns.
    - iseq Hb as v Hv. apply w3c_vc_ok in Hv as (types & ctype & subj & status & ? & ? & ? & -> & ?).
      unfold jwt_vc_json in Hb. iruns. subst. eexists. split; [done|]. eauto 12.
    - unfold mso_mdoc in Hb. iruns. subst. eauto. }
  exists t0, es_b, jwt, t1, nonce, t2, nid, t3. cbn [tk_access_token tk_credentials]. done.
Qed.

Lemma credential_ok r es resp :
  runs (credential r) es (Ok resp) →
  ∃ st tok iss es_o auth cfg t1 t2 es_p did subj ds0 es_t,
    es = [Get (cr_access_token r) (Some st); X (VIssuer (cr_credential_issuer r) (Some iss))] ++
         es_o ++ [X (VNow t1); X (VNow t2)] ++ es_p ++
         [X (VDataset subj (au_identifier auth) (Some ds0))] ++ es_t ∧
    s_stage st = Validated tok ∧
    credential_selected iss tok (cr_credential r) es_o auth ∧
    assoc (au_configuration_id auth) (is_configurations iss) = Some cfg ∧
    is_expired st t1 = false ∧ c_nonce_expired tok t2 = false ∧
    proof_checked cfg tok (cr_proof r) es_p did ∧
    s_subject_id st = Some subj ∧
    (if ds_pending ds0
     then ∃ txn t,
       es_t = [X (VGen GTransactionId txn); X (VNow t);
               Put txn (State None (Deferred txn r) (t + minutes 15)%Z) (t + minutes 15)%Z true] ∧
       resp = CredentialResponse (CRTransactionId txn) None None None
     else ∃ t0 es_b jwt t3 nonce t4 nid t5,
       let tok' := Token (tk_access_token tok) nonce (t4 + minutes 10)%Z (tk_credentials tok) in
       let st' := State (s_subject_id st) (Validated tok') (t3 + minutes 15)%Z in
       es_t = [X (VNow t0); X (VSigner (cr_credential_issuer r) true)] ++ es_b ++
              [X (VNow t3); X (VGen GNonce nonce); X (VNow t4);
               Put (tk_access_token tok) st' (t3 + minutes 15)%Z true;
               X (VGen GNotificationId nid); Put nid st' (t3 + minutes 15)%Z true; X (VNow t5)] ∧
       issued_by st iss cfg did (cr_credential_issuer r)
         (narrow auth (cr_credential r) (ds_claims ds0)) t0 es_b jwt ∧
       resp = CredentialResponse (CRCredential (KString jwt)) (Some nonce)
                (Some (num_seconds (t4 + minutes 10 - t5))) (Some nid)).
Proof.
  unfold credential. intros H. iseq H as st' Hm. iseq H as st Hst. iseq H as iss' Hm.
  iseq H as iss Hiss. subst.
  apply runs_bind_ok in H as (es_o & e1 & auth & -> & Ha & H).
  apply credential_authorized_ok in Ha as (tok & Htok & Hsel).
  iseq H as cfg Hcfg.
  apply runs_bind_ok in H as (es_v & e2 & did & -> & Hv & H).
  apply (credential_verify_ok _ tok) in Hv as (t1 & t2 & es_p & -> & Hexp & Hne & Hp); [|done].
  unfold credential_process in H. apply runs_bind_ok in H as (es_d & es_t & ds & -> & Hd & H).
  apply credential_dataset_ok in Hd as (subj & ds0 & Hsub & -> & ->).
  exists st, tok, iss, es_o, auth, cfg, t1, t2, es_p, did, subj, ds0, es_t. cbn [ds_pending] in H.
  split_and!; try done. destruct (ds_pending ds0).
  - unfold defer_response in H. iruns. subst. eauto.
  - by apply (issue_response_ok _ tok) in H.
Qed.

(** ** deferred *)

Lemma deferred_ok r es resp :
  runs (deferred r) es (Ok resp) →
  ∃ st t txn cr es_c c,
    es = [Get (dr_transaction_id r) (Some st); X (VNow t); Purge (dr_transaction_id r) true] ++ es_c ∧
    is_expired st t = false ∧ s_stage st = Deferred txn cr ∧
    crs_response resp = CRCredential c ∧
    runs (credential (CredentialRequest (dr_credential_issuer r) (dr_access_token r)
            (cr_credential cr) (cr_proof cr))) es_c (Ok resp).
Proof.
  unfold deferred. intros H. iseq H as st' Hm. iseq H as st Hst. iseq H as t Hm. iseq H as u Hexp.
  subst. destruct (s_stage st) as [| | | | | | |txn cr] eqn:Hs; try by iruns.
  iseq H as u1 Hm. iseq H as resp' Hc. destruct (crs_response resp') eqn:Hr; iruns. subst. bools.
  eexists st, t, txn, cr, _, _. split; [by rewrite app_nil_r|]. eauto.
Qed.

Lemma notification_ok r es u :
  runs (notification r) es (Ok u) →
  ∃ st c, es = [Get (nr_notification_id r) (Some st); Purge (nr_notification_id r) true] ∧
    s_stage st = Issued c.
Proof.
  unfold notification. intros H. iseq H as st' Hm. iseq H as st Hst. subst.
  destruct (s_stage st) eqn:Hs; iruns. eexists _, _. eauto.
Qed.
