(** Generated values at the issuer's endpoints. *)
From Verif Require Import Base Json CoreModel VcModel Prog ProgFacts ExecSpec ExecFacts IssuerTypes
  ClaimsModel Sha256 IssuerModel IssuerSpec IssuerFacts IssuerWp IssuerExec IssuerOffer IssuerToken AuthorizeSpec IssuerAuthorize GenModel GenSpec GenFacts.

(** ** Tokens *)
Lemma safe_inj d d' : String.get d safe_chars = String.get d' safe_chars →
  d < String.length safe_chars → d' < String.length safe_chars → d = d'.
Proof.
  intros He Hd Hd'.
  assert (forallb (λ a, forallb (λ b, negb (bool_decide (String.get a safe_chars = String.get b safe_chars)) || Nat.eqb a b)
            (seq 0 73)) (seq 0 73) = true) as H by (vm_compute; reflexivity).
  change (String.length safe_chars) with 73 in *.
  rewrite forallb_forall in H. specialize (H d). rewrite in_seq in H. specialize (H ltac:(lia)).
  rewrite forallb_forall in H. specialize (H d'). rewrite in_seq in H. specialize (H ltac:(lia)).
  rewrite bool_decide_eq_true_2 in H by done. by apply Nat.eqb_eq in H.
Qed.
Lemma random_inj draws draws' s :
  (∀ d, d ∈ draws → d < String.length safe_chars) → (∀ d, d ∈ draws' → d < String.length safe_chars) →
  random_string draws safe_chars = Some s → random_string draws' safe_chars = Some s → draws = draws'.
Proof.
  revert draws' s. induction draws as [|d r IH]; intros [|d' r'] s Hd Hd'; cbn [random_string].
  - done.
  - destruct (String.get d' safe_chars), (random_string r' safe_chars); congruence.
  - destruct (String.get d safe_chars), (random_string r safe_chars); congruence.
  - destruct (String.get d safe_chars) as [c|] eqn:E1; [|done].
    destruct (random_string r safe_chars) as [s1|] eqn:E2; [|done].
    destruct (String.get d' safe_chars) as [c'|] eqn:E3; [|done].
    destruct (random_string r' safe_chars) as [s2|] eqn:E4; [|done].
    intros [= <-] [= -> ->]. f_equal.
    + apply safe_inj; [congruence|apply Hd; by left|apply Hd'; by left].
    + apply (IH r' s1); [intros x Hx; apply Hd; by right|intros x Hx; apply Hd'; by right|done..].
Qed.
Lemma bytes_inj s s' : bytes_of_string s = bytes_of_string s' → s = s'.
Proof.
  unfold bytes_of_string. revert s'. induction s as [|c s IH]; intros [|c' s']; simpl; try done.
  intros [= Hc Hs]. f_equal; [|by apply IH]. rewrite <-(ascii_N_embedding c), <-(ascii_N_embedding c'). by rewrite Hc.
Qed.
Lemma bytes_small s : Forall (λ b, b < 256)%N (bytes_of_string s).
Proof.
  unfold bytes_of_string. apply Forall_fmap, Forall_forall. intros c _. apply N_ascii_bounded.
Qed.
Lemma bytes_length s : length (bytes_of_string s) = String.length s.
Proof. unfold bytes_of_string. rewrite map_length. induction s; simpl; congruence. Qed.

Lemma token_form s : is_random_token s → String.length s = 43 ∧ every_char url_safe s.
Proof.
  intros (draws & rnd & [Hl _] & Hs & ->). split; [|apply base64url_safe].
  rewrite base64url_length, bytes_length, (random_string_length _ _ _ Hs), Hl. reflexivity.
Qed.
Lemma token_keeps draws draws' rnd rnd' :
  drawn state_len safe_chars draws → drawn state_len safe_chars draws' →
  random_string draws safe_chars = Some rnd → random_string draws' safe_chars = Some rnd' →
  base64url (bytes_of_string rnd) = base64url (bytes_of_string rnd') → draws = draws'.
Proof.
  intros [_ H1] [_ H2] Hs Hs' He.
  apply base64url_inj in He; [|apply bytes_small..]. apply bytes_inj in He as ->.
  by eapply random_inj.
Qed.
Lemma safe_no_colon s : every_char url_safe s → ":"%char ∉ list_ascii_of_string s.
Proof.
  induction s as [|c s IH]; [set_solver|]. intros [Hc Hs]%every_cons. simpl.
  intros [<-|Hin]%elem_of_cons; [|by apply IH].
  destruct Hc as [[H|H]|[H|H]]; try (unfold digit, between in H; simpl in H; cbv in H; lia).
  set_solver.
Qed.

(** ** Transaction codes *)
Lemma offer_for_spec r code asrv g spec :
  pre_grant (offer_for r code asrv) = Some g → pg_tx_code g = Some spec →
  spec = TxCodeSpec (Some "numeric") (Some 6%Z) (Some "Please provide the one-time code received") ∧
  co_tx_code_required r = true ∧ wants r PreAuthorizedCode = true.
Proof.
  unfold pre_grant, offer_for. cbn [of_grants].
  destruct (wants r PreAuthorizedCode), (wants r AuthorizationCode), (co_tx_code_required r); simpl;
    intros [= <-]; simpl; try done; by intros [= <-].
Qed.
Lemma offered_spec r es resp o g spec :
  runs (create_offer r) es (Ok resp) → offer_given r resp es o →
  pre_grant o = Some g → pg_tx_code g = Some spec →
  (∀ s, X (VGen GTxCode s) ∈ es → is_tx_code s) →
  ∃ code, cor_tx_code resp = Some code ∧ tc_input_mode spec = Some "numeric" ∧
    tc_length spec = Some (Z.of_nat (String.length code)) ∧ every_char digit code.
Proof.
  intros Hrun Hg Hpre Hspec Hgen.
  assert (∃ code asrv, o = offer_for r code asrv) as (code & asrv & ->).
  { unfold offer_given in Hg. destruct (co_send_type r) eqn:Hsend.
    - apply create_offer_ok in Hrun as (iss & srv & code & asrv & es_tx & tx & es_st & es_ref & _ & _ & _ & _ & _ & H).
      rewrite Hsend in H. destruct H as [_ ->]. simpl in Hg. injection Hg as <-. eauto.
    - destruct Hg as (id & t & _ & _ & _ & Hput).
      assert (runs (ihandler (QCreateOffer r)) es (Ok (RCreateOffer resp))) as Hrun'.
      { cbn [ihandler]. apply runs_bind_ok. exists es, [], resp. rewrite app_nil_r. done. }
      apply elem_of_list_split in Hput as (es1 & es2 & ->).
      apply put_source in Hrun'. unfold put_from in Hrun'. cbn in Hrun'.
      destruct Hrun' as (t' & code & asrv & _ & _ & _ & _ & _ & _ & _ & ->). eauto. }
  destruct (offer_for_spec _ _ _ _ _ Hpre Hspec) as (-> & Hreq & Hw).
  apply create_offer_ok in Hrun as (iss & srv & code' & asrv' & es_tx & tx & es_st & es_ref & -> & _ & _ & Htx & _ & H).
  rewrite Hreq, Hw in Htx. destruct Htx as (c & -> & ->).
  destruct (tx_code_form c) as [Hl Hd].
  { apply Hgen. apply elem_of_app. right. apply elem_of_app. left. by left. }
  exists c. split; [by destruct (co_send_type r); [destruct H as [_ ->]|destruct H as (? & ? & _ & ->)]|].
  split; [done|]. split; [|done]. simpl. by rewrite Hl.
Qed.

(** ** PKCE at the endpoints *)
Definition noerr {A} (E : error → Prop) (p : iprog A) : Prop :=
  ∀ h, wp (λ _ _, True) (λ _ o, ∀ e, o = Err e → ¬ E e) p h.
Lemma noerr_bind {A B} E (m : iprog A) (f : A → iprog B) :
  noerr E m → (∀ a, noerr E (f a)) → noerr E (bind m f).
Proof.
  intros H1 H2 h. apply wp_bind. eapply wp_call_lemma; [apply H1|].
  intros h' [a|e|w] He; unfold bindQ; [apply H2| |done]. intros e' [= <-]. by apply He.
Qed.
Lemma noerr_mapM {A B} E (f : A → iprog B) l : (∀ a, noerr E (f a)) → noerr E (mapM_prog f l).
Proof.
  intros H. induction l as [|a l IH]; cbn [mapM_prog]; [intros h; by apply wp_ok|].
  apply noerr_bind; [done|intros b]. apply noerr_bind; [done|intros bs]. intros h. by apply wp_ok.
Qed.
Definition bad_challenge (e : error) : Prop :=
  e = InvalidRequest "code_challenge must be between 43 and 128 characters".
Ltac nb := repeat lazymatch goal with
  | |- noerr _ (bind _ _) => apply noerr_bind; [|intros ?]
  | |- noerr _ (match ?x with _ => _ end) => destruct x eqn:?
  | |- noerr _ (if ?x then _ else _) => destruct x eqn:?
  | |- noerr _ (mapM_prog _ _) => apply noerr_mapM; intros ?
  | |- noerr _ _ => fail
  end.
Ltac nfin := try solve [intros ?; iwp; intros ? [= <-]; unfold bad_challenge; discriminate].
Lemma details_noerr iss l acc : noerr bad_challenge (verify_authorization_details iss l acc).
Proof. revert acc. induction l as [|d l IH]; intros acc; cbn [verify_authorization_details]; nb; nfin. apply IH. Qed.
Lemma authorize_verify_noerr r v iss b :
  ro_code_challenge r = code_challenge v → noerr bad_challenge (authorize_verify iss b r).
Proof.
  intros Hc. unfold authorize_verify, check_scopes, verify_scope.
  nb; nfin; try apply details_noerr.
  rewrite Hc, (proj1 (challenge_form v)). nfin.
Qed.
Lemma authorize_process_noerr ctx r : noerr bad_challenge (authorize_process ctx r).
Proof. unfold authorize_process, authorize_items, iterate. nb; nfin. Qed.

Lemma noerr_runs {A} E (p : iprog A) es e : noerr E p → runs p es (Err e) → ¬ E e.
Proof. intros H Hr. exact (wp_runs _ _ _ [] es _ (H []) Hr e eq_refl). Qed.

Lemma authorize_challenge a v es e :
  (∀ r, resolves a es r → ro_code_challenge r = code_challenge v) →
  runs (authorize a) es (Err e) → e ≠ InvalidRequest "code_challenge must be between 43 and 128 characters".
Proof.
  intros Hc Hrun. unfold authorize in Hrun. apply runs_bind in Hrun.
  assert (noerr bad_challenge (match a with
    | ARObject r => ok (false, r)
    | ARUri request_uri =>
        let! st := sget request_uri in
        let! st := of_opt st (ServerError "state issue") in
        match s_stage st with
        | PushedAuthorization r expires_at =>
            let! t := now in
            ensure (negb (Z.ltb expires_at t)) (InvalidRequest "`request_uri` has expired") ;;
            ok (true, r)
        | _ => fail (InvalidRequest "invalid state")
        end
    end)) as Hn by (nb; nfin).
  destruct Hrun as [(es1 & es2 & [is_par r] & -> & H1 & H2)|[(e' & H & [= <-])|(w & _ & [=])]];
    [|exact (noerr_runs _ _ _ _ Hn H)].
  assert (ro_code_challenge r = code_challenge v) as Hv.
  { apply Hc. destruct a as [u|r']; simpl.
    - iseq H1 as st' Hm. iseq H1 as st Hst. destruct (s_stage st) eqn:Hs; try by iruns.
      iseq H1 as t Ht. iruns. subst. bools. eexists _, _, _. split; [left|]. split; [right; left|]. injection H1 as _ <-. split; [exact Hs|]. by apply Z.ltb_ge.
    - iruns. congruence. }
  revert H2. apply (noerr_runs bad_challenge). nb; nfin.
  - by eapply authorize_verify_noerr.
  - apply authorize_process_noerr.
Qed.
Lemma par_challenge r v es e :
  ro_code_challenge r = code_challenge v →
  runs (par r) es (Err e) → e ≠ InvalidRequest "code_challenge must be between 43 and 128 characters".
Proof.
  intros Hv. apply (noerr_runs bad_challenge). unfold par, par_process. nb; nfin. by eapply authorize_verify_noerr.
Qed.

(** *** Redeeming *)
Definition bad_verifier (e : error) : Prop :=
  e = AccessDenied "`code_verifier` is missing" ∨ e = AccessDenied "`code_verifier` is invalid".
Lemma token_verifier r es e code u v :
  tr_grant r = TGAuthorizationCode code u (Some v) → runs (token r) es (Err e) → bad_verifier e →
  ∃ st a, Get code (Some st) ∈ es ∧ s_stage st = StAuthorized a ∧ code_challenge v ≠ az_code_challenge a.
Proof.
  intros Hg Hrun Hbad.
  assert (wp (λ _ _, True) (λ h o, ∀ e, o = Err e → bad_verifier e →
    ∃ st a, Get code (Some st) ∈ h ∧ s_stage st = StAuthorized a ∧ code_challenge v ≠ az_code_challenge a) (token r) []) as H.
  2:{ exact (wp_runs _ _ _ [] es _ H Hrun e eq_refl Hbad). }
  unfold token, token_verify, token_process, check_scopes. rewrite Hg. cbn [token_state_key].
  iwp; try (intros ? [= <-] [[=]|[=]]). 
  all: try (match goal with H : bool_decide (code_challenge _ = _) = false |- _ => apply bool_decide_eq_false in H end).
  all: try (subst; eexists _, _; split; [hin|]; split; [eassumption|congruence]).
Qed.

Lemma redeemed (c : iconfig) i j a resp r u v o :
  ireach c → fresh (c_log c) →
  answered c i (QAuthorize a) (Ok (RAuthorize resp)) →
  (∀ ro, asked_by c a ro → ro_code_challenge ro = code_challenge v) →
  answered c j (QToken r) o → tr_grant r = TGAuthorizationCode (ar_code resp) u (Some v) →
  ∀ e, o = Err e → e ≠ AccessDenied "`code_verifier` is missing" ∧ e ≠ AccessDenied "`code_verifier` is invalid".
Proof.
  intros Hr Hf Hi Hch Hj Hg e ->.
  assert (¬ bad_verifier e) as Hne; [|unfold bad_verifier in Hne; tauto]. intros Hbad.
  apply answered_runs in Hj as Hrun; [|done]. cbn [ihandler] in Hrun.
  apply runs_bind in Hrun as [(es1 & es2 & x & _ & _ & Hx)|[(e' & Hrun & [= <-])|(w & _ & [=])]].
  { unfold ok in Hx. apply runs_ret in Hx as [_ [=]]. }
  eapply token_verifier in Hrun as (st & z & Hin & Hs & Hne); [|done..].
  apply answered_runs in Hi as Hrun'; [|done]. apply handler_ok in Hrun' as (resp' & [= <-] & Hrun').
  apply authorize_records in Hrun' as (ro & h0 & h1 & iss & t & items & Hes & _ & _ & Hgen & _).
  assert (Get (ar_code resp) (Some st) ∈ calls_of j (take (length (c_log c)) (c_log c))) as Hin'.
  { by rewrite firstn_all. }
  destruct (read_pos _ _ _ _ _ Hr Hin') as (g & m & em & x & b & Hlt & Hm & Hem).
  destruct (put_pos _ _ _ _ _ _ _ Hr Hm Hem) as (q & p & Hq & Hp).
  unfold put_from in Hp. rewrite Hs in Hp. destruct q; try done.
  all: try (unfold credential_put in Hp; rewrite Hs in Hp; done).
  all: try (destruct Hp as (? & ? & ? & ? & ? & ? & Hp); unfold credential_put in Hp; rewrite Hs in Hp; done).
  destruct Hp as (ro' & t' & Hres & Hgen' & _ & _ & _ & _ & _ & _ & _ & Hz & _).
  assert (X (VGen GAuthCode (ar_code resp)) ∈ calls_of i (c_log c)) as Hgi.
  { rewrite Hes. apply elem_of_app. right. right. done. }
  apply calls_of_elem in Hgi as (ei & Hei & Hwi & Hvi). apply elem_of_list_lookup in Hei as (ni & Hei).
  apply calls_of_take_elem in Hgen' as (nj & ej & _ & Hej & Hwj & Hvj).
  assert (ni = nj) as -> by (eapply (fresh_pos _ _ _ _ _ _ _ _ Hf Hei Hej Hvi Hvj); done).
  assert (e_who em = i) as Hwho by congruence.
  rewrite Hwho in *. unfold answered in Hi. rewrite Hi in Hq. injection Hq as <- <-.
  apply Hne. rewrite Hz. symmetry. apply Hch. by eapply resolves_asked.
Qed.
