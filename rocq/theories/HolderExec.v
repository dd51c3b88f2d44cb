(** Where the wallet's stored issuances and presentations come from, in every execution. *)
From Verif Require Import Base Json CoreModel VcModel Prog ProgFacts ExecSpec ExecFacts Sha256 IssuerTypes
  MatcherModel VerifierModel HolderModel HolderSpec HolderFacts.

(** ** Positions in the log *)
Section exec.
Context (c : hconfig) (Hr : hreach c).
Notation log := (c_log c).
Notation past n i := (calls_of i (take n log)).

Lemma say_pos n i e eff : log !! n = Some (Entry i e eff) → ∃ q, asked c i q ∧ hsays q (past n i) e.
Proof.
  intros Hn. destruct (pos_path _ _ _ _ _ Hr Hn) as (q & p & es2 & Hq & Hp). simpl in *.
  exists q. split; [by exists p|].
  exact (wp_event _ _ _ _ _ _ _ _ (handler_says q) Hp).
Qed.
Lemma past_made n i e : e ∈ past n i → ∃ m, m < n ∧ made c m i e.
Proof.
  intros H. apply calls_of_take_elem in H as (m & [i' e' eff] & Hlt & Hm & Hw & He). simpl in *. subst.
  exists m. split; [done|]. by exists eff.
Qed.
Lemma past_get n i id v : HGet id (Some v) ∈ past n i →
  ∃ m j x b, m < n ∧ log !! m = Some (Entry j (HPut id v x b) true).
Proof.
  intros H. apply calls_of_take_elem in H as (g & eg & Hlt & Hg & _ & He).
  destruct (get_source _ _ _ _ _ _ _ Hr Hg He (lookup_empty id)) as (m & [j e eff] & x & b & Hm & Hlm & Hem & Hf & _).
  simpl in *. subst. exists m, j, x, b. split; [lia|done].
Qed.
Lemma asked_inj i q q' : asked c i q → asked c i q' → q = q'.
Proof. intros [p Hp] [p' Hp']. congruence. Qed.

(** ** Issuances *)
Definition received_by (n : nat) (id : string) (cr : wcredential) : Prop :=
  ∃ j q m1 m2 resp, asked c j q ∧
    ((∃ r, q = HCredentials r ∧ hc_issuance_id r = id) ∨ ∃ tx cfg, q = HDeferred id tx cfg) ∧
    m1 < n ∧ made c m1 j (HX (EVerifyVc (wc_issued cr) (Some (wc_vc cr, wc_issuance_date cr)))) ∧
    m2 < n ∧ ((∃ cq, made c m2 j (HX (ECredential cq (Some resp)))) ∨ ∃ dq, made c m2 j (HX (EDeferred dq (Some resp)))) ∧
    contains_token resp (wc_issued cr).
Definition fetched (n : nat) (i : nat) (iss : string) (v : issuance) : Prop :=
  ∃ m1 m2, m1 < n ∧ made c m1 i (HX (EMetadata iss (Some (hi_issuer v)))) ∧
    m2 < n ∧ made c m2 i (HX (EServer iss (Some (hi_server v)))).
Definition from_offer (n1 : nat) (id : string) (v : issuance) : Prop :=
  ∃ i1, saved c n1 i1 id ∧ asked c i1 (HOffer (hi_client_id v) (hi_subject_id v) (hi_offer v)) ∧
    fetched n1 i1 (of_credential_issuer (hi_offer v)) v ∧ hi_scope v = None.
Definition accepted_at (n2 : nat) (id : string) (accept : option (list auth_spec)) : Prop :=
  ∃ i2, saved c n2 i2 id ∧ asked c i2 (HAccept id accept).
Definition pin_at (n3 : nat) (id p : string) : Prop :=
  ∃ i3, saved c n3 i3 id ∧ asked c i3 (HPin id p).
Definition from_wallet (n1 i1 : nat) (id : string) (v : issuance) : Prop :=
  ∃ r iss, saved c n1 i1 id ∧ asked c i1 (HAuthorize r) ∧
    hz_initiator r = ByWallet (hi_client_id v) iss (hi_scope v) (hi_subject_id v) ∧
    fetched n1 i1 iss v ∧ hi_offer v = CredentialOffer "" [] None.
Definition token_at (n4 : nat) (id : string) (v : issuance) : Prop :=
  ∃ j q tr tok, asked c j q ∧ made c n4 j (HX (EToken tr (Some tok))) ∧
    (q = HToken id ∨ ∃ r, q = HAuthorize r ∧ (hz_initiator r = ByIssuer id ∨ ∃ n1, from_wallet n1 j id v)) ∧
    tr_credential_issuer tr = is_credential_issuer (hi_issuer v) ∧ tr_client_id tr = Some (hi_client_id v) ∧
    trs_access_token tok = trs_access_token (hi_token v) ∧
    trs_authorization_details tok = trs_authorization_details (hi_token v).
Definition accepted_as (n : nat) (id : string) (n1 : nat) (v : issuance) : Prop :=
  ∃ n2 a, n1 < n2 < n ∧ accepted_at n2 id a ∧ a ≠ Some [] ∧ asks_as_specified a (hi_accepted v) ∧
    (∀ l s cl, a = Some l → s ∈ l → as_claims s = Some cl →
       is_Some (assoc (as_configuration_id s) (is_configurations (hi_issuer v)))) ∧
    match hi_status v with
    | SPendingPin => needs_pin (hi_offer v) = true ∧ hi_pin v = None
    | _ => if needs_pin (hi_offer v) then ∃ n3 p, n2 < n3 < n ∧ pin_at n3 id p ∧ hi_pin v = Some p
           else hi_pin v = None
    end.
(** How an issuance stored before position [n] came about. *)
Definition provenance (n : nat) (id : string) (v : issuance) : Prop :=
  hi_id v = id ∧ hi_notification_id v = None ∧ Forall (received_by n id) (hi_credentials v) ∧
  ((∃ n1 i1, n1 < n ∧ from_wallet n1 i1 id v ∧ hi_status v = STokenReceived) ∨
   (∃ n1, n1 < n ∧ from_offer n1 id v ∧
      match hi_status v with
      | SReady => hi_accepted v = None ∧ hi_pin v = None
      | SPendingPin | SAccepted => accepted_as n id n1 v
      | STokenReceived => ∃ n2 a, n1 < n2 < n ∧ accepted_at n2 id a
      | _ => False
      end)) ∧
  (hi_status v = STokenReceived → ∃ n4, n4 < n ∧ token_at n4 id v).

Lemma received_by_mono m n id cr : m ≤ n → received_by m id cr → received_by n id cr.
Proof.
  intros Hle (j & q & m1 & m2 & resp & E1 & E2 & E3 & E4 & E5 & E6 & E7).
  exists j, q, m1, m2, resp. split_and!; try done; lia.
Qed.
Lemma received_past n j q id cr h :
  asked c j q → ((∃ r, q = HCredentials r ∧ hc_issuance_id r = id) ∨ ∃ tx cfg, q = HDeferred id tx cfg) →
  h = past n j → received h cr → received_by n id cr.
Proof.
  intros Hq Hk -> [E1 (resp & E2 & E3)].
  apply past_made in E1 as (m1 & Hm1 & E1).
  destruct E3 as [[cq E3]|[cq E3]]; apply past_made in E3 as (m2 & Hm2 & E3).
  - exists j, q, m1, m2, resp. split_and!; try done. left. eauto.
  - exists j, q, m1, m2, resp. split_and!; try done. right. eauto.
Qed.
Lemma accepted_as_mono m n id n1 v : m ≤ n → accepted_as m id n1 v → accepted_as n id n1 v.
Proof.
  intros Hle (n2 & a & E1 & E2 & E3 & E4 & E5 & E6). exists n2, a. split; [lia|]. do 4 (split; [done|]).
  destruct (hi_status v); try done; destruct (needs_pin (hi_offer v)); try done;
    (destruct E6 as (n3 & p & ? & ? & ?); exists n3, p; split; [lia|done]).
Qed.

Lemma narrow_specs_asks sup l ds : narrow_specs sup l = Some ds →
  asks_as_specified (Some l) (Some ds) ∧
  ∀ s cl, s ∈ l → as_claims s = Some cl → is_Some (assoc (as_configuration_id s) sup).
Proof.
  unfold asks_as_specified. revert ds. induction l as [|s l IH]; intros ds; simpl.
  { intros [= <-]. split; [done|]. by intros ? ? ?%elem_of_nil. }
  destruct (as_claims s) as [cl|] eqn:Hc.
  - destruct (assoc (as_configuration_id s) sup) as [cfg|] eqn:Ha; [|done].
    destruct (narrow_specs sup l) as [ds'|]; [|done]. intros [= <-]. destruct (IH _ eq_refl) as [E1 E2]. split.
    + constructor; [|done]. eexists. split; [done|]. rewrite Hc. by destruct (cc_format cfg).
    + intros s' cl' [->|Hs]%elem_of_cons; [by rewrite Ha|by apply E2].
  - destruct (narrow_specs sup l) as [ds'|]; [|done]. intros [= <-]. destruct (IH _ eq_refl) as [E1 E2]. split.
    + constructor; [|done]. eexists. split; [done|]. by rewrite Hc.
    + intros s' cl' [->|Hs]%elem_of_cons; [congruence|by apply E2].
Qed.
Lemma narrow_scope_asks sup a d : narrow_scope sup a = Some d →
  asks_as_specified a d ∧
  ∀ l s cl, a = Some l → s ∈ l → as_claims s = Some cl → is_Some (assoc (as_configuration_id s) sup).
Proof.
  unfold narrow_scope. destruct a as [l|].
  - destruct (narrow_specs sup l) as [ds|] eqn:Hn; [|done]. intros [= <-].
    apply narrow_specs_asks in Hn as [E1 E2]. split; [done|]. intros ? ? ? [= <-]. apply E2.
  - by intros [= <-].
Qed.

Lemma provenance_put m j id v x b : log !! m = Some (Entry j (HPut id (HSIssuance v) x b) true) →
  (∀ m' id' i', m' < m → HGet id' (Some (HSIssuance i')) ∈ past m j → provenance m id' i') →
  provenance (S m) id v.
Proof.
  intros Hm IH'.
  assert (∀ id' i', HGet id' (Some (HSIssuance i')) ∈ past m j → provenance m id' i') as IH.
  { intros id' i' Hg. pose proof (past_made _ _ _ Hg) as (m' & ? & _). by eapply IH'. }
  clear IH'. pose proof (say_pos _ _ _ _ Hm) as (q & Hq & _ & Hp).
  assert (saved c m j id) as Hsv by (by do 3 eexists).
  unfold issuance_put in Hp. destruct q as [cl sb o|id' a|id' p|id'|r|r|id' tx cfg|id'|id'|u|id'|id']; try done.
  - destruct Hp as (md & srv & _ & E1 & E2 & E3 & ->). unfold provenance. simpl.
    split_and!; try done. right. exists m. split; [lia|]. split; [|done].
    exists j. split; [done|]. split; [done|]. split; [|done]. simpl.
    apply past_made in E1 as (m1 & ? & E1). apply past_made in E2 as (m2 & ? & E2). by exists m1, m2.
  - destruct Hp as (i & d & E1 & E2 & E3 & E4 & -> & ->). destruct (IH _ _ E1) as (E5 & E6 & E7 & E8 & _).
    rewrite E5 in *. unfold provenance. simpl. split_and!; try done.
    + eapply Forall_impl; [exact E7|]. intros ?. apply received_by_mono. lia.
    + right. destruct E8 as [(? & ? & _ & _ & ?)|(n1 & Hlt & Ho & Hs)]; [congruence|].
      rewrite E2 in Hs. destruct Hs as [Ha Hpin]. exists n1. split; [lia|]. split; [exact Ho|].
      destruct (narrow_scope_asks _ _ _ E4) as [E9 E10].
      assert (accepted_as (S m) id' n1 (set_status (if needs_pin (hi_offer i) then SPendingPin else SAccepted)
               (set_accepted d i))) as Hacc.
      { exists m, a. split; [lia|]. split; [by exists j|]. split; [done|]. split; [done|]. split; [done|].
        simpl. destruct (needs_pin (hi_offer i)); done. }
      destruct (needs_pin (hi_offer i)); exact Hacc.
    + by destruct (needs_pin _).
  - destruct Hp as (i & E1 & E2 & -> & ->). destruct (IH _ _ E1) as (E5 & E6 & E7 & E8 & _).
    rewrite E5 in *. unfold provenance. simpl. split_and!; try done.
    + eapply Forall_impl; [exact E7|]. intros ?. apply received_by_mono. lia.
    + right. destruct E8 as [(? & ? & _ & _ & ?)|(n1 & Hlt & Ho & Hs)]; [congruence|].
      exists n1. split; [lia|]. split; [exact Ho|]. rewrite E2 in Hs.
      destruct Hs as (n2 & a & F1 & F2 & F3 & F4 & F5 & F6). rewrite E2 in F6. destruct F6 as [F6 F7].
      exists n2, a. split; [lia|]. do 4 (split; [done|]). simpl. rewrite F6. exists m, p. split; [lia|].
      split; [by exists j|done].
  - destruct Hp as (i & g & d & tok & E1 & E2 & E3 & -> & ->). destruct (IH _ _ E1) as (E5 & E6 & E7 & E8 & _).
    rewrite E5 in *. unfold provenance. simpl. split_and!; try done.
    + eapply Forall_impl; [exact E7|]. intros ?. apply received_by_mono. lia.
    + right. destruct E8 as [(? & ? & _ & _ & ?)|(n1 & Hlt & Ho & Hs)]; [congruence|].
      exists n1. split; [lia|]. split; [exact Ho|]. rewrite E2 in Hs.
      destruct Hs as (n2 & a & F1 & F2 & _). exists n2, a. split; [lia|done].
    + intros _. apply past_made in E3 as (n4 & Hlt & E3). exists n4. split; [lia|].
      exists j, (HToken id'). do 2 eexists. split_and!; [done|exact E3|by left|done..].
  - destruct Hp as (i & verifier & g & d & tok & E1 & E3 & -> & ->). unfold started in E1.
    apply past_made in E3 as (n4 & Hlt & E3).
    destruct (hz_initiator r) as [cl iss scope sb|id'] eqn:Hi.
    + destruct E1 as (id & md & srv & _ & E1 & E2 & ->). simpl in *.
      assert (∀ p1 p2 v, hi_issuer v = md → hi_server v = srv → hi_client_id v = cl → hi_subject_id v = sb → hi_scope v = scope →
        hi_offer v = CredentialOffer "" [] None → p1 = m → p2 = j → from_wallet p1 p2 id v) as Hw.
      { intros p1 p2 v <- <- <- <- <- E4 -> ->. exists r, iss. split; [done|]. split; [done|]. split; [done|]. split; [|done].
        apply past_made in E1 as (m1 & ? & E1). apply past_made in E2 as (m2 & ? & E2). by exists m1, m2. }
      unfold provenance. simpl. split_and!; try done.
      * left. exists m, j. split; [lia|]. split; [by apply Hw|done].
      * intros _. exists n4. split; [lia|]. exists j, (HAuthorize r). do 2 eexists.
        split_and!; [done|exact E3| |done..]. right. exists r. split; [done|]. right. exists m. by apply Hw.
    + destruct E1 as (E1 & E2 & _). destruct (IH _ _ E1) as (E5 & E6 & E7 & E8 & _).
      rewrite E5 in *. unfold provenance. simpl. split_and!; try done.
      * eapply Forall_impl; [exact E7|]. intros ?. apply received_by_mono. lia.
      * right. destruct E8 as [(? & ? & _ & _ & ?)|(n1 & Hlt1 & Ho & Hs)]; [congruence|].
        exists n1. split; [lia|]. split; [exact Ho|]. rewrite E2 in Hs.
        destruct Hs as (n2 & a & F1 & F2 & _). exists n2, a. split; [lia|done].
      * intros _. exists n4. split; [lia|]. exists j, (HAuthorize r). do 2 eexists.
        split_and!; [done|exact E3| |done..]. right. exists r. split; [done|]. by left.
  - destruct Hp as (i & E1 & E2 & -> & l & d & t & -> & E3 & E4 & E4n & E4').
    destruct (IH _ _ E1) as (E5 & E6 & E7 & E8 & E9).
    rewrite E5 in *. unfold provenance. simpl. split_and!; try done.
    + apply Forall_app. split.
      * eapply Forall_impl; [exact E7|]. intros ?. apply received_by_mono. lia.
      * eapply Forall_impl; [exact E4'|]. intros cr Hcr. apply (received_by_mono m); [lia|].
        eapply received_past; [exact Hq| |reflexivity|exact Hcr]. left. eauto.
    + destruct E8 as [(n1 & i1 & Hlt & Ho & Hs)|(n1 & Hlt & Ho & Hs)]; [left|right].
      * exists n1, i1. split; [lia|]. split; [exact Ho|done].
      * exists n1. split; [lia|]. split; [exact Ho|]. rewrite E2 in *. destruct Hs as (n2 & a & F1 & F2).
        exists n2, a. split; [lia|done].
    + intros _. destruct (E9 E2) as (n4 & Hlt & j' & q' & tr & tok & F1 & F2 & F3 & F4 & F5 & F6 & F7).
      exists n4. split; [lia|]. exists j', q', tr, tok. simpl. rewrite E3, E4. split_and!; done.
  - destruct Hp as (i & E1 & E2 & -> & l & d & t & -> & E3 & E4 & E4n & E4').
    destruct (IH _ _ E1) as (E5 & E6 & E7 & E8 & E9). simpl in *.
    rewrite E5 in *. unfold provenance. simpl. split_and!; try done.
    + apply Forall_app. split.
      * eapply Forall_impl; [exact E7|]. intros ?. apply received_by_mono. lia.
      * eapply Forall_impl; [exact E4'|]. intros cr Hcr. apply (received_by_mono m); [lia|].
        eapply received_past; [exact Hq| |reflexivity|exact Hcr]. right. eauto.
    + destruct E8 as [(n1 & i1 & Hlt & Ho & Hs)|(n1 & Hlt & Ho & Hs)]; [left|right].
      * exists n1, i1. split; [lia|]. split; [exact Ho|done].
      * exists n1. split; [lia|]. split; [exact Ho|]. rewrite E2 in *. destruct Hs as (n2 & a & F1 & F2).
        exists n2, a. split; [lia|done].
    + intros _. destruct (E9 E2) as (n4 & Hlt & j' & q' & tr & tok & F1 & F2 & F3 & F4 & F5 & F6 & F7).
      exists n4. split; [lia|]. exists j', q', tr, tok. simpl. rewrite E3, E4. split_and!; done.
Qed.
Lemma provenance_mono m n id v : m ≤ n → provenance m id v → provenance n id v.
Proof.
  intros Hle (E1 & E2 & E3 & E4 & E5). split; [done|]. split; [done|]. split; [|split].
  - eapply Forall_impl; [exact E3|]. intros ?. by apply received_by_mono.
  - destruct E4 as [(n1 & i1 & ? & E4)|(n1 & ? & E4 & E6)]; [left; exists n1, i1; split; [lia|done]|right].
    exists n1. split; [lia|]. split; [done|]. destruct (hi_status v); try done;
      try (by eapply accepted_as_mono). destruct E6 as (n2 & a & ? & ?). exists n2, a. split; [lia|done].
  - intros Hs. destruct (E5 Hs) as (n4 & ? & ?). exists n4. split; [lia|done].
Qed.
Lemma provenance_get n j id v : HGet id (Some (HSIssuance v)) ∈ past n j → provenance n id v.
Proof.
  revert j id v. induction n as [n IH] using lt_wf_ind. intros j id v Hg.
  apply past_get in Hg as (m & j' & x & b & Hlt & Hm). apply (provenance_mono (S m)); [lia|].
  eapply provenance_put; [exact Hm|]. intros m' id' i' Hm' Hg'. by eapply IH.
Qed.

(** The nonce of an issuance comes from the answer to its token request, or to a later
    credential request. *)
Definition nonce_from (n : nat) (id : string) (v : issuance) : Prop :=
  ∀ nonce, trs_c_nonce (hi_token v) = Some nonce → ∃ m j, m < n ∧
    ((∃ tr tok, made c m j (HX (EToken tr (Some tok))) ∧ trs_c_nonce tok = Some nonce ∧
        (asked c j (HToken id) ∨ ∃ r, asked c j (HAuthorize r) ∧
           (hz_initiator r = ByIssuer id ∨
            (∃ cl iss sc sb, hz_initiator r = ByWallet cl iss sc sb) ∧ ∃ n1, saved c n1 j id))) ∨
     (∃ r cq resp, asked c j (HCredentials r) ∧ hc_issuance_id r = id ∧
        made c m j (HX (ECredential cq (Some resp))) ∧ wr_c_nonce resp = Some nonce)).
Lemma nonce_from_mono m n id v : m ≤ n → nonce_from m id v → nonce_from n id v.
Proof. intros Hle H nonce Hn. destruct (H _ Hn) as (m' & j & ? & ?). exists m', j. split; [lia|done]. Qed.
Lemma nonce_put m j id v x b : log !! m = Some (Entry j (HPut id (HSIssuance v) x b) true) →
  (∀ id' i', HGet id' (Some (HSIssuance i')) ∈ past m j → nonce_from m id' i') →
  nonce_from (S m) id v.
Proof.
  intros Hm IH. pose proof (say_pos _ _ _ _ Hm) as (q & Hq & _ & Hp).
  assert (saved c m j id) as Hsv by (by do 3 eexists).
  assert (∀ id' i', HGet id' (Some (HSIssuance i')) ∈ past m j → hi_id i' = id') as Hid.
  { intros id' i' Hg. by apply provenance_get in Hg as [? _]. }
  unfold issuance_put in Hp. destruct q as [cl sb o|id' a|id' p|id'|r|r|id' tx cfg|id'|id'|u|id'|id']; try done.
  - by destruct Hp as (md & srv & _ & E1 & E2 & E3 & ->).
  - destruct Hp as (i & d & E1 & E2 & E3 & E4 & -> & ->). rewrite (Hid _ _ E1).
    intros nonce Hn. destruct (IH _ _ E1 nonce Hn) as (m' & j' & ? & ?). exists m', j'. split; [lia|done].
  - destruct Hp as (i & E1 & E2 & -> & ->). rewrite (Hid _ _ E1).
    intros nonce Hn. destruct (IH _ _ E1 nonce Hn) as (m' & j' & ? & ?). exists m', j'. split; [lia|done].
  - destruct Hp as (i & g & d & tok & E1 & E2 & E3 & -> & ->). rewrite (Hid _ _ E1).
    intros nonce Hn. apply past_made in E3 as (n4 & Hlt & E3). exists n4, j. split; [lia|]. left.
    eexists _, tok. split; [exact E3|]. split; [done|]. by left.
  - destruct Hp as (i & verifier & g & d & tok & E1 & E3 & -> & ->). intros nonce Hn.
    apply past_made in E3 as (n4 & Hlt & E3). exists n4, j. split; [lia|]. left.
    eexists _, tok. split; [exact E3|]. split; [done|]. right. exists r. split; [done|]. unfold started in E1.
    destruct (hz_initiator r) as [cl iss scope sb|id'] eqn:Hi.
    + right. split; [by eauto 6|]. by exists m.
    + left. destruct E1 as [E1 _]. by rewrite (Hid _ _ E1).
  - destruct Hp as (i & E1 & E2 & -> & l & d & t & -> & E3 & E4 & E4n & E4'). rewrite (Hid _ _ E1).
    intros nonce Hn. simpl in Hn. destruct E4n as [E4n|(cq & resp & n & E5 & E6 & E7)].
    + rewrite E4n in Hn. destruct (IH _ _ E1 nonce Hn) as (m' & j' & ? & ?). exists m', j'. split; [lia|done].
    + apply past_made in E5 as (m' & Hlt & E5). exists m', j. split; [lia|]. right.
      exists r, cq, resp. split; [done|]. split; [done|]. split; [done|]. congruence.
  - destruct Hp as (i & E1 & E2 & -> & l & d & t & -> & E3 & E4 & E4n & E4'). rewrite (Hid _ _ E1).
    intros nonce Hn. simpl in Hn. destruct E4n as [E4n|(cq & resp & n & E5 & E6 & E7)].
    + rewrite E4n in Hn. destruct (IH _ _ E1 nonce Hn) as (m' & j' & ? & ?). exists m', j'. split; [lia|done].
    + apply past_made in E5 as (m' & Hlt & eff & E5).
      destruct (say_pos _ _ _ _ E5) as (q' & Hq' & r' & i' & t' & jwt & -> & _).
      pose proof (asked_inj _ _ _ Hq Hq'). done.
Qed.
Lemma nonce_get n j id v : HGet id (Some (HSIssuance v)) ∈ past n j → nonce_from n id v.
Proof.
  revert j id v. induction n as [n IH] using lt_wf_ind. intros j id v Hg.
  apply past_get in Hg as (m & j' & x & b & Hlt & Hm). apply (nonce_from_mono (S m)); [lia|].
  eapply nonce_put; [exact Hm|]. intros id' i' Hg'. by eapply IH.
Qed.

(** ** Presentations *)
Definition requested_at (n1 : nat) (id : string) (v : presentation) : Prop :=
  ∃ i1 url, saved c n1 i1 id ∧ asked c i1 (HRequest url) ∧ build_filter (hp_request v) = Some (hp_filter v) ∧
    (∃ m, m < n1 ∧ made c m i1 (HX (EFind (hp_filter v) (Some (hp_credentials v))))) ∧
    ∃ m, m < n1 ∧ (made c m i1 (HX (EParseRequest url (Some (hp_request v)))) ∨
                   ∃ jwt, made c m i1 (HX (EDecodeRequest jwt (Some (hp_request v))))).
Definition pprovenance (n : nat) (id : string) (v : presentation) : Prop :=
  hp_id v = id ∧ ∃ n1, n1 < n ∧ requested_at n1 id v ∧
    match hp_status v with
    | PRequested => True
    | PAuthorized => ∃ n2 i2, n1 < n2 < n ∧ saved c n2 i2 id ∧ asked c i2 (HConsent id)
    | _ => False
    end.
Lemma pprovenance_get n j id v : HGet id (Some (HSPresentation v)) ∈ past n j → pprovenance n id v.
Proof.
  revert j id v. induction n as [n IH] using lt_wf_ind. intros j id v Hg.
  apply past_get in Hg as (m & j' & x & b & Hlt & Hm).
  pose proof (say_pos _ _ _ _ Hm) as (q & Hq & _ & Hp).
  assert (saved c m j' id) as Hsv by (by do 3 eexists).
  unfold presentation_put in Hp. destruct q as [| | | | | | | | |url|id'|]; try done.
  - destruct Hp as (req & creds & flt & _ & E1 & E2 & E3 & ->). split; [done|]. exists m. split; [lia|]. split; [|done].
    exists j', url. split; [done|]. split; [done|]. split; [done|]. split; [by apply past_made|]. simpl.
    destruct E3 as [E3|[jwt E3]]; apply past_made in E3 as (m' & ? & E3); exists m'; split; [done|eauto..].
  - destruct Hp as (p & E1 & E2 & -> & ->). destruct (IH m Hlt _ _ _ E1) as (E3 & n1 & E4 & E5 & _).
    rewrite E3 in *. split; [done|]. exists n1. split; [lia|]. split; [done|]. simpl. exists m, j'. split; [lia|done].
Qed.
End exec.
