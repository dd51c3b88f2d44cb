(** What the issuer saves comes from requests that were read, and can be read itself. *)
From Coq Require Import Lia.
From Verif Require Import Base StringSpec Json CoreModel VcModel Prog ProgFacts ExecSpec ExecFacts IssuerTypes IssuerModel IssuerSpec IssuerFacts IssuerWp
  IssuerExec IssuerToken IssuerClaims SerdeSpec.

Section over.
Variable D : authorization_detail → Prop.
Variable F : credential_issuance → Prop.
Hypothesis D_offer : ∀ id, D (AuthorizationDetail (ByConfigurationId id None) None).

Definition item_over (i : authorized_item) : Prop := ∀ d, ai_item i = ItemDetail d → D d.
Definition details_over (r : request_object) : Prop :=
  ∀ l d, ro_authorization_details r = Some l → d ∈ l → D d.
Definition stage_over (s : stage) : Prop :=
  match s with
  | Unauthorized => True
  | Pending o => readable_offer o
  | Offered o => ∀ l i, off_items o = Some l → i ∈ l → item_over i
  | PushedAuthorization r _ => details_over r
  | StAuthorized a => ∀ i, i ∈ az_items a → item_over i
  | Validated t => NoDup (keys (tk_credentials t))
  | Issued _ => False
  | Deferred _ r => F (cr_credential r)
  end.
Definition request_over (q : irequest) : Prop :=
  match q with
  | QAuthorize (ARObject r) | QPar r => details_over r
  | QCredential r => F (cr_credential r)
  | _ => True
  end.

Lemma elem_of_ainsert {A} k (v : A) l k' v' : (k', v') ∈ ainsert k v l → v' = v ∨ (k', v') ∈ l.
Proof.
  induction l as [|[k1 v1] l IH]; simpl.
  - intros [[= -> ->]|H]%elem_of_cons; [by left|by right].
  - case_bool_decide.
    + intros [[= -> ->]|H']%elem_of_cons; [by left|right; by right].
    + intros [[= -> ->]|H']%elem_of_cons; [right; by left|]. destruct (IH H'); [by left|right; by right].
Qed.
Lemma elem_of_permute {A} ix (l : list A) x : x ∈ permute ix l → x ∈ l.
Proof. by rewrite permute_perm. Qed.

Definition item_inv (a : authorization_request) (h : ihist) (e : ievent) : Prop :=
  match e with
  | EPut k v x _ => ∃ r z, resolves a h r ∧ s_stage v = StAuthorized z ∧
      ∀ i d, i ∈ az_items z → ai_item i = ItemDetail d → ∃ l, ro_authorization_details r = Some l ∧ d ∈ l
  | _ => True
  end.
Lemma wp_quiet {A} (Φ : ihist → ievent → Prop) (p : prog ISig A) (Q : ihist → A → Prop) h :
  (∀ h e, is_put e = false → Φ h e) → noput p → (∀ es a, runs p es a → Q (h ++ es) a) → wp Φ Q p h.
Proof.
  intros HΦ Hn HQ. apply wp_intro.
  - intros es1 e es2 p' Hp. apply (noput_path _ _ _ Hn) in Hp. apply Forall_app in Hp as [_ Hp].
    apply Forall_cons in Hp as [Hp _]. by apply HΦ.
  - intros es a Hr. by apply HQ.
Qed.
Lemma details_of (l : list authorization_detail) ids acc k d :
  (k, d) ∈ foldl (λ m p, ainsert p.1 p.2 m) acc (zip ids l) → d ∈ l ∨ (k, d) ∈ acc.
Proof.
  revert ids acc. induction l as [|d' l IH]; intros [|id ids] acc; simpl; try by right.
  intros [H|H]%IH; [left; by right|]. apply elem_of_ainsert in H as [->|H]; [left; by left|by right].
Qed.

Lemma authorize_items_wp a : wp (item_inv a) (λ _ _, True) (authorize a) [].
Proof.
  assert (∀ h e, is_put e = false → item_inv a h e) as HΦ by (by intros h []).
  unfold authorize. apply wp_bind.
  apply (wp_call_lemma _ _ (λ h o, match o with Ok p => resolves a h p.2 | _ => True end)).
  { unfold resolves. destruct a as [u|r]; iwp. subst.
    eexists _, _, _. split; [hin|]. split; [hin|]. split; [done|]. bools.
    match goal with H : Z.ltb _ _ = false |- _ => apply Z.ltb_ge in H end. done. }
  intros h [[is_par r]|e|w] Hr; unfold bindQ; [|done..]. simpl in Hr.
  iwx iss'. iwo iss Hiss. subst. apply wp_bind. apply wp_quiet; [done|apply noput_authorize_verify|].
  intros es [ctx|e|w] Hv; unfold bindQ; [|done..].
  apply authorize_verify_ok in Hv as (cl & srv & es_s & _ & _ & Hctx & _).
  unfold authorize_process.
  apply wp_bind. apply wp_quiet; [done|apply noput_iterate|]. intros es1 [l1|e|w] H1; unfold bindQ; [|done..].
  apply wp_bind. apply wp_quiet; [done|apply noput_authorize_items|].
  intros es2 [items1|e|w] Hi1; unfold bindQ; [|done..].
  apply wp_bind. apply wp_quiet; [done|apply noput_iterate|]. intros es3 [l2|e|w] _; unfold bindQ; [|done..].
  apply wp_bind. apply wp_quiet; [done|apply noput_authorize_items|].
  intros es4 [items2|e|w] Hi2; unfold bindQ; [|done..].
  apply authorize_items_ok in Hi1 as [_ Hi1]. apply authorize_items_ok in Hi2 as [_ Hi2].
  apply iterate_ok in H1 as (ix & _ & ->).
  iwe Hne. iwx t. iwx code.
  apply wp_bind. iwp1; [|unfold bindQ; by iwp..].
  exists r. eexists. split; [|split; [reflexivity|]].
  { unfold resolves in *. destruct a as [u|r']; [|done].
    destruct Hr as (st & exp & t' & ? & ? & ? & ?). exists st, exp, t'.
    split_and!; [| |done|done]; (repeat (apply elem_of_app; left)); done. }
  simpl. intros i d Hi Hd. apply elem_of_app in Hi as [Hi|Hi].
  - apply elem_of_list_lookup in Hi as (n & Hn). eapply Forall2_lookup_r in Hi1 as ([k d'] & Hn' & Hit); [|done].
    destruct Hit as [Hit _]. rewrite Hd in Hit. injection Hit as ->. apply elem_of_list_lookup_2 in Hn'.
    apply elem_of_permute in Hn'. simpl in Hn'.
    pose proof (azc_details _ _ _ _ _ Hctx) as Hdet. destruct (ro_authorization_details r) as [l|].
    + destruct Hdet as (ids & _ & Hdet). rewrite Hdet in Hn'. apply details_of in Hn' as [Hn'|Hn'].
      * by exists l.
      * by apply elem_of_nil in Hn'.
    + rewrite Hdet in Hn'. by apply elem_of_nil in Hn'.
  - apply elem_of_list_lookup in Hi as (n & Hn). eapply Forall2_lookup_r in Hi2 as ([k d'] & Hn' & Hit); [|done].
    destruct Hit as [Hit _]. by rewrite Hd in Hit.
Qed.

Lemma authorize_path a p es1 k v x o es2 :
  path (ihandler (QAuthorize a)) (es1 ++ Put k v x o :: es2) p → item_inv a es1 (Put k v x o).
Proof.
  intros H. assert (wp (item_inv a) (λ _ _, True) (ihandler (QAuthorize a)) []) as Hwp.
  { cbn [ihandler]. apply wp_bind. eapply wp_call_lemma; [apply authorize_items_wp|]. by intros h [b|e|w] _. }
  apply (wp_event _ _ _ _ [] es1 _ es2 Hwp H).
Qed.

Theorem saved_over (c : iconfig) : ireach c →
  (∀ i q p, c_pool c !! i = Some (q, p) → request_over q) →
  ∀ n en k v x o, c_log c !! n = Some en → e_ev en = Put k v x o → stage_over (s_stage v).
Proof.
  intros Hr Hq n. induction (lt_wf n) as [n _ IH]. intros en k v x o Hn He.
  destruct (put_pos _ _ _ _ _ _ _ Hr Hn He) as (q & p & Hpool & Hput). pose proof (Hq _ _ _ Hpool) as Hover.
  assert (∀ i k' v', Get k' (Some v') ∈ calls_of i (take n (c_log c)) → stage_over (s_stage v')) as Hread.
  { intros i k' v' H. destruct (read_pos _ _ _ _ _ Hr H) as (g & m & em & x' & o' & Hlt & Hm & Hem).
    apply (IH m) with (2 := Hm) (3 := Hem). lia. }
  assert (∀ r, F (cr_credential r) → credential_put r (calls_of (e_who en) (take n (c_log c))) k v x → stage_over (s_stage v)) as Hcp.
  { intros r HF Hc. unfold credential_put in Hc. destruct (s_stage v) as [ | | | | |tok| |txn r']; try done.
    - destruct Hc as (st & tok0 & t & Hg & Hs & _ & _ & Htk & _). simpl. rewrite Htk.
      apply Hread in Hg. by rewrite Hs in Hg.
    - destruct Hc as (t & _ & -> & _). done. }
  destruct q as [r|r|a|r|r|r|r|r|r|r|r]; try done.
  - unfold put_from in Hput. destruct (s_stage v) as [ |of|of| | | | |]; try done.
    + destruct Hput as (t & code & asrv & _ & _ & _ & _ & _ & _ & _ & ->). simpl.
      intros g p' t' z. unfold offer_for. simpl. destruct (wants r PreAuthorizedCode), (wants r AuthorizationCode); simpl;
        try (intros [= <-]; simpl); try done; try (intros [= <-]; simpl); destruct (co_tx_code_required r); try done;
        intros [= <-]; simpl; by intros [= <-].
    + destruct Hput as (t & _ & _ & _ & _ & _ & _ & Hit & _). simpl. intros l i Hl Hi d Hd.
      destruct (wants r PreAuthorizedCode); [|by rewrite Hit in Hl].
      destruct Hit as (its & E & Hf & _). rewrite E in Hl. injection Hl as ->.
      apply elem_of_list_lookup in Hi as (m & Hm). eapply Forall2_lookup_r in Hf as (id & _ & Hok & _); [|done].
      rewrite Hd in Hok. injection Hok as ->. apply D_offer.
  - destruct (pos_path _ _ _ _ _ Hr Hn) as (q' & p' & es2 & Hq' & Hp). rewrite Hpool in Hq'. injection Hq' as <- <-.
    rewrite He in Hp. apply authorize_path in Hp. destruct Hp as (r & z & Hres & Hs & Hit). rewrite Hs. simpl.
    intros i Hi d Hd. destruct (Hit i d Hi Hd) as (l & Hl & Hdl).
    destruct a as [u|r'].
    + destruct Hres as (st & exp & t & Hg & _ & Hst & _). apply Hread in Hg. rewrite Hst in Hg. by apply (Hg l).
    + simpl in Hres. subst. by apply (Hover l).
  - unfold put_from in Hput. destruct (s_stage v); try done. by destruct Hput as (? & ? & ? & -> & _).
  - unfold put_from in Hput. destruct (s_stage v); try done.
    destruct Hput as (st & items & _ & _ & _ & _ & _ & _ & _ & _ & _ & Htk & _). simpl. rewrite Htk.
    apply authorized_credentials_table.
  - by apply (Hcp r).
  - unfold put_from in Hput. destruct Hput as (st & txn & cr & Hg & Hs & _ & Hc).
    apply Hread in Hg. rewrite Hs in Hg. by apply Hcp in Hc.
Qed.
End over.
