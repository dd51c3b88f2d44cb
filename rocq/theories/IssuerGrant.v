(** From the data that is released back to the grant: lemmas. *)
From Verif Require Import Base Json CoreModel VcModel Prog ProgFacts ExecSpec ExecFacts Sha256 IssuerTypes
  IssuerModel IssuerSpec IssuerFacts IssuerWp IssuerExec IssuerOffer IssuerToken IssuerCredential ComposeSpec.

(** The token request that the saved token comes from. *)
Lemma validated_source (c : iconfig) n en k v x o tok :
  ireach c → c_log c !! n = Some en → e_ev en = Put k v x o → s_stage v = Validated tok →
  ∃ j r p st0 items, c_pool c !! j = Some (QToken r, p) ∧
    X (VGen GToken (tk_access_token tok)) ∈ calls_of j (c_log c) ∧
    Get (presented r) (Some st0) ∈ calls_of j (c_log c) ∧ s_subject_id v = s_subject_id st0 ∧
    tk_credentials tok = authorized_credentials items ∧
    (∀ it, it ∈ items → it ∈ stage_items (s_stage st0)) ∧
    match tr_grant r with
    | TGAuthorizationCode _ _ _ => ∃ a, s_stage st0 = StAuthorized a
    | TGPreAuthorizedCode _ _ => ∃ o, s_stage st0 = Offered o
    end.
Proof.
  intros Hr. revert en k v x o tok. induction n as [n IH] using lt_wf_ind.
  intros en k v x o tok Hn He Hs.
  destruct (put_pos _ _ _ _ _ _ _ Hr Hn He) as (q & p & Hq & Hp). unfold put_from in Hp.
  match goal with |- ?G => assert (∀ r, credential_put r (calls_of (e_who en) (take n (c_log c))) k v x → G) as Hc end.
  { intros r Hcp. unfold credential_put in Hcp. rewrite Hs in Hcp.
    destruct Hcp as (st & tok0 & t & Hget & Hst & _ & Htk & Hcr & _ & Hsub & _).
    destruct (read_pos _ _ _ _ _ Hr Hget) as (g & m & em & x' & o' & Hlt & Hm & Hem).
    rewrite Htk, Hcr, Hsub. exact (IH m ltac:(lia) _ _ _ _ _ _ Hm Hem Hst). }
  destruct q; rewrite ?Hs in Hp; try done.
  - destruct Hp as (st & items & -> & Hg & _ & Hget & _ & _ & Hsub & _ & _ & Hcr & Hits & Hgr).
    exists (e_who en), r, p, st, items. split; [done|]. split; [by eapply calls_take|].
    split; [|done]. eapply calls_take. unfold presented. unfold token_state_key in Hget. by destruct (tr_grant r).
  - by eapply Hc.
  - destruct Hp as (st & txn & cr & _ & _ & _ & Hp). by eapply Hc.
Qed.

(** The call that made the code. *)
Lemma code_granted (c : iconfig) j r st0 it subj id :
  ireach c → Get (presented r) (Some st0) ∈ calls_of j (c_log c) → s_subject_id st0 = Some subj →
  it ∈ stage_items (s_stage st0) → id ∈ ai_identifiers it →
  match tr_grant r with
  | TGAuthorizationCode _ _ _ => ∃ a, s_stage st0 = StAuthorized a
  | TGPreAuthorizedCode _ _ => ∃ o, s_stage st0 = Offered o
  end → granted_to c r subj id.
Proof.
  intros Hr Hin Hsub Hit Hid Hg. rewrite <-(firstn_all (c_log c)) in Hin.
  destruct (read_pos _ _ _ _ _ Hr Hin) as (g & m & em & x & b & Hlt & Hm & Hem).
  destruct (put_pos _ _ _ _ _ _ _ Hr Hm Hem) as (q & p & Hq & Hp). unfold put_from in Hp.
  unfold granted_to. destruct (tr_grant r) eqn:Eg; destruct Hg as [z Hz]; rewrite Hz in Hp, Hit; simpl in Hit.
  - destruct q; try done.
    + destruct Hp as (ro & t & Hres & Hgen & _ & Hs' & _ & _ & _ & _ & _ & _ & Hf).
      rewrite Hsub in Hs'. injection Hs' as ->.
      exists (e_who em), (QAuthorize r0), p, (ai_configuration_id it), (ai_identifiers it).
      split; [done|]. split; [by eapply calls_take|]. split.
      { eapply calls_take. exact (proj1 (Forall_forall _ _) Hf it Hit). }
      split; [done|]. exists ro. split; [|done]. by eapply resolves_asked.
    + unfold credential_put in Hp. by rewrite Hz in Hp.
    + destruct Hp as (? & ? & ? & ? & ? & ? & Hp). unfold credential_put in Hp. by rewrite Hz in Hp.
  - destruct q; try done.
    + destruct Hp as (t & Hgen & _ & Hs' & _ & _ & _ & Hw & _). rewrite Hsub in Hs'.
      destruct (wants r0 PreAuthorizedCode); [|rewrite Hw in Hit; by apply elem_of_nil in Hit].
      destruct Hw as (its & Ei & Hok & Hf). rewrite Ei in Hit. simpl in Hit.
      exists (e_who em), (QCreateOffer r0), p, (ai_configuration_id it), (ai_identifiers it).
      split; [done|]. split; [by eapply calls_take|]. split.
      { eapply calls_take. rewrite <-Hs' in Hf. exact (proj1 (Forall_forall _ _) Hf it Hit). }
      split; [done|]. split; [done|].
      apply elem_of_list_lookup in Hit as [l Hl]. destruct (Forall2_lookup_r _ _ _ _ _ Hok Hl) as (cfg & Hcfg & Hitok).
      apply elem_of_list_lookup. exists l. unfold offer_item_ok in Hitok. rewrite Hcfg. f_equal. naive_solver.
    + unfold credential_put in Hp. by rewrite Hz in Hp.
    + destruct Hp as (? & ? & ? & ? & ? & ? & Hp). unfold credential_put in Hp. by rewrite Hz in Hp.
Qed.

Lemma bearer_request q h0 r : credential_request_of q h0 r → bearer q = Some (cr_access_token r).
Proof.
  destruct q; simpl; try done; [by intros [_ ->]|]. by intros (st & t & txn & cr & _ & _ & _ & ->).
Qed.

(** The data belong to the subject of the grant. *)
Lemma dataset_granted (c : iconfig) i subj id d :
  ireach c → X (VDataset subj id d) ∈ calls_of i (c_log c) →
  ∃ q p at_ st tok j r pj, c_pool c !! i = Some (q, p) ∧ bearer q = Some at_ ∧
    Get at_ (Some st) ∈ calls_of i (c_log c) ∧ s_stage st = Validated tok ∧
    c_pool c !! j = Some (QToken r, pj) ∧ X (VGen GToken (tk_access_token tok)) ∈ calls_of j (c_log c) ∧
    (fresh (c_log c) → is_token (c_log c) at_ → tk_access_token tok = at_) ∧
    granted_to c r subj id.
Proof.
  intros Hr Hin. apply calls_of_elem_pos in Hin as (n & en & Hn & Hw & He). subst.
  destruct (pos_path _ _ _ _ _ Hr Hn) as (q & p & es2 & Hq & Hp). rewrite He in Hp.
  apply releases_source in Hp as (r & h0 & h1 & Hh & Hcr & st & tok & s & iss & auth & cfg & did & Hen & Hsub & Hok); [|done].
  destruct Hok as [-> ->].
  destruct (en_live _ _ _ _ _ _ _ _ Hen) as (l1 & l2 & l3 & t & Heq & _).
  assert (Get (cr_access_token r) (Some st) ∈ calls_of (e_who en) (take n (c_log c))) as Hget.
  { rewrite Hh, Heq. set_solver. }
  destruct (read_pos _ _ _ _ _ Hr Hget) as (g & m & em & x & o & Hlt & Hm & Hem).
  pose proof (en_stage _ _ _ _ _ _ _ _ Hen) as Hst.
  destruct (validated_source _ _ _ _ _ _ _ _ Hr Hm Hem Hst) as
    (j & r' & pj & st0 & items & Hj & Hgen & Hg0 & Hs0 & Hcred & Hits & Hgr).
  destruct (chosen_in _ _ _ _ (en_chosen _ _ _ _ _ _ _ _ Hen)) as (key & Hk & _).
  destruct (authorized_credentials_table items) as (Hnd & _ & Htab). rewrite Hcred in Hk.
  apply (assoc_elem _ _ _ Hnd) in Hk. apply Htab in Hk as (Hid & it & Hit & Hkey & _).
  exists q, p, (cr_access_token r), st, tok, j, r', pj.
  split; [done|]. split; [by eapply bearer_request|]. split; [by eapply calls_take|]. split; [done|].
  split; [done|]. split; [done|]. split.
  - intros Hf (et & Het & Hte). apply elem_of_list_lookup in Het as [a Ha].
    destruct (key_fits _ _ _ _ _ _ _ _ _ _ Hr Hf Hm Hem Ha Hte) as (_ & _ & _ & Hk); [done|].
    destruct (Hk eq_refl) as (tok' & Htok & <-). congruence.
  - eapply code_granted; [done|done|congruence|by apply Hits| |done]. by rewrite Hid.
Qed.
