(** Every request the wallet sends to an issuer, in every execution, is read by the issuer as it was
    sent. *)
From Coq Require Import Lia.
From Verif Require Import Base StringSpec Json MatcherModel JsonParse JsonText CoreModel VcModel Prog ProgFacts ExecSpec ExecFacts Sha256 IssuerTypes
  SerdeSpec SerdeModel SerdeFacts SerdeTrips SerdeText SerdeProps VcSpec VcSerde VcTrips VerifierModel DifSerde DifSpec DifTrips MetaSerde MetaSpec
  HolderModel HolderSpec HolderFacts HolderExec HolderProps RecordSerde RecordSpec RecordTrips RecordExec SentSpec.
From Verif Require HolderRuns.

(** ** The formats asked for *)
Definition asks_known (h : hhist) (e : hevent) : Prop :=
  match e with
  | EExt (ECredential cq _) =>
      match cr_credential cq with
      | CIIdentifier _ => True
      | CIFormat f => ∃ k i id cfg, HGet k (Some (HSIssuance i)) ∈ h ∧ (id, cfg) ∈ is_configurations (hi_issuer i) ∧ f = cc_format cfg
      end
  | _ => True
  end.
Lemma find_by_scope_in s f l r : find_by_scope s f l = Some r → r ∈ l.
Proof.
  induction l as [|[id c] l IH]; [done|]. cbn. destruct (_ && _); [intros [= <-]; by left|]. intros H. right. by apply IH.
Qed.
Lemma take_credential_known cfg k h (Q : hhist → outcome string wcredential → Prop) : (∀ h' o, Q h' o) →
  wp asks_known Q (take_credential cfg k) h.
Proof. intros H. unfold take_credential. hwp. Qed.
Lemma take_credentials_known cfg l : ∀ h (Q : hhist → outcome string (list wcredential) → Prop), (∀ h' o, Q h' o) →
  wp asks_known Q (take_credentials cfg l) h.
Proof.
  induction l as [|k l IH]; intros h Q H; cbn [take_credentials]; [by hwp|].
  apply wp_bind, take_credential_known. intros h' [c|e|w]; unfold bindQ; [|apply H|apply H].
  apply wp_bind, IH. intros h2 [cs|e|w]; unfold bindQ; [by hwp|apply H|apply H].
Qed.
Lemma take_response_known cfg_id cfg resp i h (Q : hhist → outcome string issuance → Prop) : (∀ h' o, Q h' o) →
  wp asks_known Q (take_response cfg_id cfg resp i) h.
Proof.
  intros H. unfold take_response. destruct (wr_response resp) as [k|l|id].
  - apply wp_bind, take_credential_known. intros h' [c|e|w]; unfold bindQ; [by hwp|apply H|apply H].
  - apply wp_bind, take_credentials_known. intros h' [c|e|w]; unfold bindQ; [by hwp|apply H|apply H].
  - by hwp.
Qed.
Lemma by_identifiers_known r jwt cfg_id cfg ids : ∀ i h (Q : hhist → outcome string issuance → Prop), (∀ h' o, Q h' o) →
  wp asks_known Q (by_identifiers r jwt cfg_id cfg ids i) h.
Proof.
  induction ids as [|id ids IH]; intros i h Q H; cbn [by_identifiers]; [by hwp|]. destruct (match hc_identifiers r with Some l => contains l id | None => true end);
    [|by apply IH]. hwp. apply take_response_known. intros h' [c|e|w]; unfold bindQ; [by apply IH|apply H|apply H].
Qed.
Lemma by_details_known r jwt l : ∀ i h (Q : hhist → outcome string issuance → Prop), (∀ h' o, Q h' o) →
  wp asks_known Q (by_details r jwt l i) h.
Proof.
  induction l as [|d l IH]; intros i h Q H; cbn [by_details]; [by hwp|]. hwp.
  apply by_identifiers_known. intros h' [c|e|w]; unfold bindQ; [by apply IH|apply H|apply H].
Qed.
Lemma credentials_known r : wp asks_known anyQ (h_credentials r) [].
Proof.
  unfold h_credentials. hwp.
  - unfold credential_by_format. hwp.
    + cbn [asks_known cr_credential]. match goal with cc : string * credential_configuration |- _ => destruct cc as [id cfg] end.
      exists (hc_issuance_id r), i, id, cfg. split; [hhin|]. split; [by eapply find_by_scope_in|done].
    + apply take_response_known. intros h' [c|e|w]; unfold bindQ; [by hwp|done|done].
  - unfold credential_by_identifier. hwp. apply by_details_known. intros h' [c|e|w]; unfold bindQ; [by hwp|done|done].
Qed.

(** ** What is asked for can be read *)
Definition fine_details (n : nat) (o : option (list authorization_detail)) : Prop :=
  (∀ l d, o = Some l → d ∈ l → readable_detail (read_back d)) ∧ claims_within n (details_claims o).
Lemma offered_fine n sup : (∀ id cfg l, (id, cfg) ∈ sup → format_claims (cc_format cfg) = Some l → readable_claims l ∧ claims_depth l ≤ n) →
  ∀ ids ds, offered_details sup ids = Some ds → fine_details n (Some ds).
Proof.
  intros Hsup ids. induction ids as [|id ids IH]; intros ds; cbn [offered_details].
  { intros [= <-]. split; [by intros l d [= <-] ?%elem_of_nil|by intros ? ?%elem_of_nil]. }
  destruct (assoc id sup) as [cfg|] eqn:Ea; [|done]. destruct (offered_details sup ids) as [ds'|]; [|done]. intros [= <-].
  destruct (IH ds' eq_refl) as [H1 H2]. apply HolderRuns.assoc_in in Ea.
  assert (∀ l, format_claims (cc_format cfg) = Some l → readable_claims l ∧ claims_depth l ≤ n) as Hl by (intros l; by apply (Hsup id)).
  split.
  - intros l d [= <-] [->|Hd]%elem_of_cons; [|by apply (H1 ds')]. unfold readable_detail, read_back. cbn [ad_credential].
    destruct (format_claims (cc_format cfg)) as [cl|]; [|done]. destruct (Hl cl eq_refl) as [H3 _].
    destruct (cc_format cfg); cbn; try done; intros ? [= <-]; done.
  - intros cl Hcl. cbn in Hcl. apply elem_of_app in Hcl as [Hcl|Hcl]; [|by apply H2]. destruct (format_claims (cc_format cfg)) as [l|]; [|by apply elem_of_nil in Hcl].
    destruct (Hl l eq_refl) as [_ H3]. destruct (cc_format cfg); cbn in Hcl; apply elem_of_list_singleton in Hcl as ->; done.
Qed.
Lemma ser_details_read o : null_or (ser_list ser_detail) (details_as_read o) = null_or (ser_list ser_detail) o.
Proof.
  destruct o as [l|]; [|done]. cbn. unfold ser_list. f_equal. rewrite map_map. apply map_ext. intros d. by rewrite ser_read_back.
Qed.
Lemma some_details_read k o : some_entry k (ser_list ser_detail) (details_as_read o) = some_entry k (ser_list ser_detail) o.
Proof.
  destruct o as [l|]; [|done]. cbn. unfold ser_list. do 3 f_equal. rewrite map_map. apply map_ext. intros d. by rewrite ser_read_back.
Qed.
Lemma ser_token_read tr : ser_token_request (token_as_read tr) = ser_token_request tr.
Proof. unfold ser_token_request, token_as_read. cbn [tr_credential_issuer tr_client_id tr_grant tr_authorization_details]. by rewrite some_details_read. Qed.
Lemma ser_request_read r : ser_request (request_as_read r) = ser_request r.
Proof. unfold ser_request, ser_request_entries, request_as_read. cbn [ro_credential_issuer ro_response_type ro_client_id ro_redirect_uri ro_state ro_code_challenge
  ro_code_challenge_method ro_authorization_details ro_scope ro_subject_id ro_issuer_state]. by rewrite some_details_read. Qed.

Section sent.
Context (n : nat) (c : hconfig) (Hr : hreach c) (Hs : wallet_supplied n c) (Hmd : metadata_supplied n c).
Notation past m j := (calls_of j (take m (c_log c))).
Lemma got_fine m j k i : HGet k (Some (HSIssuance i)) ∈ past m j → fine_issuance n i.
Proof. intros H. apply past_get in H as (m' & j' & x' & b' & Hlt & Hm'); [|done]. exact (saved_fine n c Hr Hs _ _ _ _ _ _ _ Hm'). Qed.
Lemma got_metadata m j k i : HGet k (Some (HSIssuance i)) ∈ past m j →
  ∀ id cfg l, (id, cfg) ∈ is_configurations (hi_issuer i) → format_claims (cc_format cfg) = Some l → readable_claims l ∧ claims_depth l ≤ n.
Proof.
  intros H id cfg l Hin. apply (provenance_get _ Hr) in H as (_ & _ & _ & [Ho|Ho] & _).
  - destruct Ho as (n1 & i1 & _ & (r' & iss & _ & _ & _ & (m1 & m2 & _ & Hm1 & _) & _) & _). by apply (Hmd _ _ _ _ id cfg Hm1).
  - destruct Ho as (n1 & _ & (i1 & _ & _ & (m1 & m2 & _ & Hm1 & _) & _) & _). by apply (Hmd _ _ _ _ id cfg Hm1).
Qed.
Lemma token_details_fine m i tr r : made c m i (HX (EToken tr r)) → fine_details n (tr_authorization_details tr).
Proof.
  intros [eff Hm]. destruct (say_pos _ Hr _ _ _ _ Hm) as (q & Hq & Hp). cbn [hsays token_call] in Hp.
  destruct q as [| | |id|z| | | | | | |]; try done.
  - destruct Hp as (v & g & Hg & _ & _ & ->). destruct (got_fine _ _ _ _ Hg) as (_ & H1 & H2 & _). done.
  - destruct Hp as (v & vf & req & resp & _ & _ & ->). destruct (proj1 Hs _ _ Hq) as [H1 H2]. done.
Qed.
Lemma request_details_fine m i req r : made c m i (HX (EAuthorization req r)) → fine_details n (ro_authorization_details req).
Proof.
  intros [eff Hm]. destruct (say_pos _ Hr _ _ _ _ Hm) as (q & Hq & z & v & vf & -> & Hst & _ & _ & _ & _ & _ & _ & _ & _ & Hd & _).
  destruct (initiator_scope z); [rewrite Hd; split; [done|by intros ? ?%elem_of_nil]|]. destruct Hd as (ds & -> & Hd).
  unfold wanted_details in Hd. cbn in Hd. destruct (hz_details z) as [l|] eqn:El.
  - injection Hd as <-. destruct (proj1 Hs _ _ Hq) as [H1 H2]. rewrite El in *. done.
  - unfold started in Hst. destruct (hz_initiator z); [done|]. destruct Hst as [Hg _]. eapply offered_fine; [|exact Hd]. exact (got_metadata _ _ _ _ Hg).
Qed.
Lemma token_sent m i tr r : n ≤ 122 → made c m i (HX (EToken tr r)) →
  read de_token_request (write ser_token_request tr) = Some (token_as_read tr).
Proof.
  intros Hn Hm. destruct (token_details_fine _ _ _ _ Hm) as [H1 H2]. unfold write. rewrite <-(ser_token_read tr). apply token_request_text.
  - intros l d Hl Hd. cbn in Hl. destruct (tr_authorization_details tr) as [l0|]; [|done]. injection Hl as <-.
    apply elem_of_list_fmap in Hd as (d0 & -> & Hd). by apply (H1 l0).
  - intros cl. cbn [token_as_read tr_authorization_details]. unfold details_as_read. rewrite details_read_back. intros Hcl%H2. lia.
Qed.
Lemma request_sent m i req r : n ≤ 122 → made c m i (HX (EAuthorization req r)) →
  read de_request (write ser_request req) = Some (request_as_read req).
Proof.
  intros Hn Hm. destruct (request_details_fine _ _ _ _ Hm) as [H1 H2]. unfold write. rewrite <-(ser_request_read req). apply request_text.
  - intros l d Hl Hd. cbn in Hl. destruct (ro_authorization_details req) as [l0|]; [|done]. injection Hl as <-.
    apply elem_of_list_fmap in Hd as (d0 & -> & Hd). by apply (H1 l0).
  - intros cl. cbn [request_as_read ro_authorization_details]. unfold details_as_read. rewrite details_read_back. intros Hcl%H2. lia.
Qed.
Lemma credential_sent m i cq r : n ≤ 124 → made c m i (HX (ECredential cq r)) →
  read de_credential_request (write ser_credential_request cq) = Some cq.
Proof.
  intros Hn [eff Hm]. destruct (say_pos _ Hr _ _ _ _ Hm) as (q & Hq & z & v & t & jwt & -> & Hg & _).
  destruct (pos_path _ _ _ _ _ Hr Hm) as (q' & p' & es2 & Hq' & Hpath). cbn [e_who e_ev] in *.
  assert (q' = HCredentials z) as -> by (apply (asked_inj c i); [by eexists|done]).
  assert (wp asks_known anyQ (hhandler (HCredentials z)) []) as Hwp.
  { cbn [hhandler]. apply wp_bind. eapply wp_mono; [done| |exact (credentials_known z)]. intros h' [] _; done. }
  pose proof (wp_event _ _ _ _ _ _ _ _ Hwp Hpath) as H. cbn [asks_known app] in H.
  apply credential_request_text.
  - unfold readable_credential_request. destruct (cr_credential cq) as [id|f]; [done|]. destruct H as (k & i0 & id & cfg & Hg' & Hin & ->).
    intros l Hl. by apply (got_metadata _ _ _ _ Hg' id cfg l).
  - intros cl Hcl. destruct (cr_credential cq) as [id|f]; [by apply elem_of_nil in Hcl|]. destruct H as (k & i0 & id & cfg & Hg' & Hin & ->).
    cbn in Hcl. destruct (format_claims (cc_format cfg)) as [l|] eqn:El; [|by apply elem_of_nil in Hcl].
    apply elem_of_list_singleton in Hcl as ->. destruct (got_metadata _ _ _ _ Hg' id cfg l Hin El). lia.
Qed.
End sent.
(** ** When nothing changes *)
Lemma details_same_iff o : details_as_read o = o ↔ no_sd_jwt_claims o.
Proof.
  unfold no_sd_jwt_claims. destruct o as [l|]; cbn; [|split; [done|by intros]]. split.
  - intros [= H] l' d id cl [= <-] Hd Hc.
    assert (read_back d = d) as E.
    { clear Hc. induction l as [|x l IH]; [by apply elem_of_nil in Hd|]. cbn in H. injection H as H1 H2.
      apply elem_of_cons in Hd as [->|Hd]; [done|by apply IH]. }
    apply (f_equal ad_credential) in E. unfold read_back in E. rewrite Hc in E. cbn in E. congruence.
  - intros H. f_equal. assert (∀ d, d ∈ l → read_back d = d) as Hd.
    { intros x Hx. destruct x as [[id [[x|cl|cl]|]|f] loc]; try done. by destruct (H _ _ id cl eq_refl Hx). }
    clear H. induction l as [|x l IH]; [done|]. cbn. f_equal; [apply Hd; by left|]. apply IH. intros y Hy. apply Hd. by right.
Qed.
Lemma token_same_iff tr : token_as_read tr = tr ↔ no_sd_jwt_claims (tr_authorization_details tr).
Proof.
  rewrite <-details_same_iff. destruct tr as [a b g o]. unfold token_as_read. cbn [tr_credential_issuer tr_client_id tr_grant tr_authorization_details].
  split; [intros H; exact (f_equal tr_authorization_details H)|intros H; f_equal; exact H].
Qed.
Lemma request_same_iff r : request_as_read r = r ↔ no_sd_jwt_claims (ro_authorization_details r).
Proof.
  rewrite <-details_same_iff. destruct r as [a b g o e f h i j k l]. unfold request_as_read. cbn [ro_credential_issuer ro_response_type ro_client_id ro_redirect_uri ro_state ro_code_challenge
    ro_code_challenge_method ro_authorization_details ro_scope ro_subject_id ro_issuer_state].
  split; [intros H; exact (f_equal ro_authorization_details H)|intros H; f_equal; exact H].
Qed.
Lemma token_sent_iff n c m i tr r : hreach c → wallet_supplied n c → n ≤ 122 → made c m i (HX (EToken tr r)) →
  read de_token_request (write ser_token_request tr) = Some tr ↔ no_sd_jwt_claims (tr_authorization_details tr).
Proof.
  intros Hr Hs Hn Hm. rewrite (token_sent n c Hr Hs m i tr r Hn Hm), <-token_same_iff. split; [by intros [= H]|by intros ->].
Qed.
Lemma request_sent_iff n c m i req r : hreach c → wallet_supplied n c → metadata_supplied n c → n ≤ 122 → made c m i (HX (EAuthorization req r)) →
  read de_request (write ser_request req) = Some req ↔ no_sd_jwt_claims (ro_authorization_details req).
Proof.
  intros Hr Hs Hmd Hn Hm. rewrite (request_sent n c Hr Hs Hmd m i req r Hn Hm), <-request_same_iff. split; [by intros [= H]|by intros ->].
Qed.
Lemma authorization_sent strict n c m i req r : hreach c → wallet_supplied n c → metadata_supplied n c → n ≤ 122 → made c m i (HX (EAuthorization req r)) →
  read (de_authorization_request strict) (write ser_authorization_request (ARObject req)) = Some (ARObject (request_as_read req)).
Proof.
  intros Hr Hs Hmd Hn Hm. destruct (request_details_fine n c Hr Hs Hmd _ _ _ _ Hm) as [H1 H2].
  assert (ser_authorization_request (ARObject req) = ser_authorization_request (ARObject (request_as_read req))) as E.
  { cbn [ser_authorization_request]. by rewrite ser_request_read. }
  unfold write. rewrite E. apply (authorization_request_text strict (ARObject (request_as_read req))). split.
  - intros l d Hl Hd. cbn in Hl. destruct (ro_authorization_details req) as [l0|]; [|done]. injection Hl as <-.
    apply elem_of_list_fmap in Hd as (d0 & -> & Hd). by apply (H1 l0).
  - intros cl. cbn [request_as_read ro_authorization_details]. unfold details_as_read. rewrite details_read_back. intros Hcl%H2. lia.
Qed.
