(** Executions of the issuer: where keys and saved states come from. *)
From Verif Require Import Base Json CoreModel VcModel Prog ProgFacts ExecSpec ExecFacts IssuerTypes
  ClaimsModel Sha256 IssuerModel IssuerSpec IssuerFacts IssuerWp.

Notation iconfig := (config ISig irequest (outcome error ireply)).
Notation ireach := (reachable ihandler ∅).
Notation ilog := (list (entry ISig)).

(** ** Expiry *)

Lemma num_seconds_neg d : Z.ltb (num_seconds d) 0 = true ↔ (d ≤ - seconds 1)%Z.
Proof.
  unfold num_seconds, seconds, nanos. rewrite Z.ltb_lt. split; intros H.
  - destruct (decide (d ≤ -1000000000)%Z) as [|Hn]; [lia|]. exfalso.
    assert (- (1000000000) < d)%Z as Hd by lia.
    assert (0 ≤ Z.quot d 1000000000)%Z; [|lia].
    destruct (decide (0 ≤ d)%Z) as [Hp|Hp]; [by apply Z.quot_pos|].
    rewrite <-(Z.opp_involutive d), Z.quot_opp_l by lia. rewrite Z.quot_small; lia.
  - rewrite <-(Z.opp_involutive d), Z.quot_opp_l by lia.
    assert (1 ≤ Z.quot (- d) 1000000000)%Z; [|lia].
    apply Z.quot_le_lower_bound; lia.
Qed.
Lemma num_seconds_nonneg d : Z.ltb (num_seconds d) 0 = false ↔ (- seconds 1 < d)%Z.
Proof. rewrite <-not_true_iff_false, num_seconds_neg. lia. Qed.

Lemma is_expired_false st t : is_expired st t = false ↔ (t < s_expires_at st + seconds 1)%Z.
Proof. unfold is_expired. rewrite num_seconds_nonneg. lia. Qed.
Lemma is_expired_true st t : is_expired st t = true ↔ (s_expires_at st + seconds 1 ≤ t)%Z.
Proof. unfold is_expired. rewrite num_seconds_neg. lia. Qed.
Lemma c_nonce_expired_false tok t :
  c_nonce_expired tok t = false ↔ (t < tk_c_nonce_expires_at tok + seconds 1)%Z.
Proof. unfold c_nonce_expired, c_nonce_expires_in. rewrite num_seconds_nonneg. lia. Qed.
Lemma c_nonce_expired_true tok t :
  c_nonce_expired tok t = true ↔ (tk_c_nonce_expires_at tok + seconds 1 ≤ t)%Z.
Proof. unfold c_nonce_expired, c_nonce_expires_in. rewrite num_seconds_neg. lia. Qed.

(** ** Generated values *)

Lemma nodup_omap_pos {A B} (f : A → option B) l a b x y s :
  NoDup (omap f l) → l !! a = Some x → l !! b = Some y → f x = Some s → f y = Some s → a = b.
Proof.
  revert a b. induction l as [|z l IH]; intros a b Hn Ha Hb Hx Hy; [done|].
  destruct a as [|a], b as [|b]; simpl in *; simplify_eq/=.
  - done.
  - rewrite Hx in Hn. apply NoDup_cons in Hn as [Hn _]. exfalso. apply Hn.
    apply elem_of_list_omap. exists y. split; [by eapply elem_of_list_lookup_2|done].
  - rewrite Hy in Hn. apply NoDup_cons in Hn as [Hn _]. exfalso. apply Hn.
    apply elem_of_list_omap. exists x. split; [by eapply elem_of_list_lookup_2|done].
  - f_equal. eapply IH; eauto. destruct (f z); [by apply NoDup_cons in Hn as [_ Hn]|done].
Qed.

Lemma generated_gen en g s : e_ev en = X (VGen g s) → g ≠ GTxCode → generated en = Some s.
Proof. unfold generated. intros -> Hg. by destruct g. Qed.

Lemma fresh_pos (log : ilog) a b ea eb g g' s :
  fresh log → log !! a = Some ea → log !! b = Some eb →
  e_ev ea = X (VGen g s) → e_ev eb = X (VGen g' s) → g ≠ GTxCode → g' ≠ GTxCode → a = b.
Proof.
  intros [Hn _] Ha Hb Hea Heb Hg Hg'. eapply nodup_omap_pos; [done..| |]; by eapply generated_gen.
Qed.
Lemma fresh_kind (log : ilog) a b ea eb g g' s :
  fresh log → log !! a = Some ea → log !! b = Some eb →
  e_ev ea = X (VGen g s) → e_ev eb = X (VGen g' s) → g ≠ GTxCode → g' ≠ GTxCode → g = g'.
Proof.
  intros Hf Ha Hb Hea Heb Hg Hg'.
  assert (a = b) as -> by exact (fresh_pos log a b ea eb g g' s Hf Ha Hb Hea Heb Hg Hg').
  congruence.
Qed.

Lemma list_ascii_app s1 s2 :
  list_ascii_of_string (s1 +:+ s2) = list_ascii_of_string s1 ++ list_ascii_of_string s2.
Proof. induction s1 as [|a s1 IH]; [done|]. simpl. f_equal. apply IH. Qed.

Lemma fresh_not_urn (log : ilog) a ea g tok :
  fresh log → log !! a = Some ea →
  e_ev ea = X (VGen g ("urn:ietf:params:oauth:request_uri:" +:+ tok)) → g ≠ GTxCode → False.
Proof.
  intros [_ Hf] Ha Hea Hg. eapply (Hf ("urn:ietf:params:oauth:request_uri:" +:+ tok)).
  - apply elem_of_list_omap. exists ea. split; [by eapply elem_of_list_lookup_2|].
    by eapply generated_gen.
  - rewrite list_ascii_app. apply elem_of_app. left. simpl. set_solver.
Qed.

(** ** Saved states *)

(** A save in the log, with the request that made it and the calls it had made before. *)
Lemma put_pos (c : iconfig) n en k v x o :
  ireach c → c_log c !! n = Some en → e_ev en = Put k v x o →
  ∃ q p, c_pool c !! e_who en = Some (q, p) ∧
    put_from q (calls_of (e_who en) (take n (c_log c))) k v x.
Proof.
  intros Hr Hn He. destruct (pos_path _ _ _ _ _ Hr Hn) as (q & p & es2 & Hq & Hp).
  rewrite He in Hp. apply put_source in Hp. eauto.
Qed.

(** A successful read, with the save it reads. *)
Lemma read_pos (c : iconfig) n i k v :
  ireach c → Get k (Some v) ∈ calls_of i (take n (c_log c)) →
  ∃ g m en x o, m < g < n ∧ c_log c !! m = Some en ∧ e_ev en = Put k v x o.
Proof.
  intros Hr H. apply calls_of_take_elem in H as (g & eg & Hlt & Hg & _ & He).
  destruct (get_source _ _ _ _ _ _ _ Hr Hg He (lookup_empty k))
    as (m & em & x & o & Hm & Hlm & Hem & _).
  exists g, m, em, x, o. split; [lia|]. done.
Qed.

(** The access token recorded in a saved token state was generated as such. *)
Lemma token_generated (c : iconfig) n en k v x o tok :
  ireach c → c_log c !! n = Some en → e_ev en = Put k v x o → s_stage v = Validated tok →
  ∃ m em, m < n ∧ c_log c !! m = Some em ∧ e_ev em = X (VGen GToken (tk_access_token tok)).
Proof.
  intros Hr. revert en k v x o tok. induction n as [n IH] using lt_wf_ind.
  intros en k v x o tok Hn He Hs.
  destruct (put_pos _ _ _ _ _ _ _ Hr Hn He) as (q & p & Hq & Hp).
  unfold put_from in Hp.
  assert (∀ r, credential_put r (calls_of (e_who en) (take n (c_log c))) k v x →
    ∃ m em, m < n ∧ c_log c !! m = Some em ∧ e_ev em = X (VGen GToken (tk_access_token tok))) as Hc.
  { intros r Hcp. unfold credential_put in Hcp. rewrite Hs in Hcp.
    destruct Hcp as (st & tok0 & t & Hget & Hst & _ & Htk & _).
    destruct (read_pos _ _ _ _ _ Hr Hget) as (g & m & em & x' & o' & Hlt & Hm & Hem).
    destruct (IH m ltac:(lia) _ _ _ _ _ _ Hm Hem Hst) as (m' & em' & ? & ? & Heq).
    exists m', em'. rewrite Htk. split; [lia|done]. }
  destruct q; rewrite ?Hs in Hp; try done.
  - destruct Hp as (st & items & -> & Hg & _).
    apply calls_of_take_elem in Hg as (m & em & Hlt & Hm & _ & Hem). eauto.
  - by eapply Hc.
  - destruct Hp as (st & txn & cr & _ & _ & _ & Hp). by eapply Hc.
Qed.

(** Where the key of a saved state comes from. *)
Definition key_kind (s : stage) (g : gen_kind) : Prop :=
  match s with
  | Pending _ => g = GUriToken
  | Offered _ | StAuthorized _ => g = GAuthCode
  | Validated _ => g = GToken ∨ g = GNotificationId
  | Deferred _ _ => g = GTransactionId
  | _ => False
  end.

Lemma key_origin (c : iconfig) n en k v x o :
  ireach c → c_log c !! n = Some en → e_ev en = Put k v x o →
  (∃ r exp tok, s_stage v = PushedAuthorization r exp ∧
     k = "urn:ietf:params:oauth:request_uri:" +:+ tok ∧
     X (VGen GUriToken tok) ∈ calls_of (e_who en) (take n (c_log c))) ∨
  (∃ g m em, key_kind (s_stage v) g ∧ m < n ∧ c_log c !! m = Some em ∧ e_ev em = X (VGen g k) ∧
     (g ≠ GToken → e_who em = e_who en) ∧
     (g = GToken → ∃ tok, s_stage v = Validated tok ∧ tk_access_token tok = k)).
Proof.
  intros Hr Hn He.
  destruct (put_pos _ _ _ _ _ _ _ Hr Hn He) as (q & p & Hq & Hp).
  unfold put_from in Hp.
  assert (∀ g, key_kind (s_stage v) g → g ≠ GToken →
    X (VGen g k) ∈ calls_of (e_who en) (take n (c_log c)) →
    ∃ g m em, key_kind (s_stage v) g ∧ m < n ∧ c_log c !! m = Some em ∧ e_ev em = X (VGen g k) ∧
     (g ≠ GToken → e_who em = e_who en) ∧
     (g = GToken → ∃ tok, s_stage v = Validated tok ∧ tk_access_token tok = k)) as Hgen.
  { intros g Hk Hgt Hin. apply calls_of_take_elem in Hin as (m & em & Hlt & Hm & Hw & Hem).
    exists g, m, em. split_and!; try done. }
  assert (∀ r, credential_put r (calls_of (e_who en) (take n (c_log c))) k v x →
    ∃ g m em, key_kind (s_stage v) g ∧ m < n ∧ c_log c !! m = Some em ∧ e_ev em = X (VGen g k) ∧
     (g ≠ GToken → e_who em = e_who en) ∧
     (g = GToken → ∃ tok, s_stage v = Validated tok ∧ tk_access_token tok = k)) as Hc.
  { intros r Hcp. unfold credential_put in Hcp. destruct (s_stage v) as [| | | | |tok| |txn cr] eqn:Hs; try done.
    - pose proof (token_generated _ _ _ _ _ _ _ _ Hr Hn He Hs) as (m & em & Hlt & Hm & Hem).
      destruct Hcp as (st & tok0 & t & Hget & Hst & [[-> _]|Hg] & Htk & _).
      + exists GToken, m, em. rewrite <-Htk. simpl. split_and!; eauto; done.
      + apply (Hgen GNotificationId); [by right|done|done].
    - destruct Hcp as (t & _ & _ & Hg & _). by eapply Hgen. }
  destruct q; try (destruct (s_stage v) as [| | | | | | |] eqn:Hs; done).
  - destruct (s_stage v) as [|off|off| | | | |] eqn:Hs; try done; right;
      [destruct Hp as (t & code & asrv & Hp & _)|destruct Hp as (t & Hp & _)]; by eapply Hgen.
  - destruct (s_stage v) as [| | | |z| | |] eqn:Hs; try done. right.
    destruct Hp as (r' & t & _ & Hp & _). by eapply Hgen.
  - destruct (s_stage v) as [| | |r' exp| | | |] eqn:Hs; try done. left.
    destruct Hp as (tok & t1 & t2 & -> & Hg & -> & _). eauto 8.
  - destruct (s_stage v) as [| | | | |tok| |] eqn:Hs; try done. right.
    destruct Hp as (st & items & -> & Hg & _).
    apply calls_of_take_elem in Hg as (m & em & Hlt & Hm & Hw & Hem).
    exists GToken, m, em. simpl. split_and!; eauto; done.
  - right. by eapply Hc.
  - right. destruct Hp as (st & txn & cr & _ & _ & _ & Hp). by eapply Hc.
Qed.

(** What is saved under a generated key fits the kind of the key. *)
Lemma key_fits (c : iconfig) n en k v x o a ea g :
  ireach c → fresh (c_log c) → c_log c !! n = Some en → e_ev en = Put k v x o →
  c_log c !! a = Some ea → e_ev ea = X (VGen g k) → g ≠ GTxCode →
  key_kind (s_stage v) g ∧ a < n ∧ (g ≠ GToken → e_who ea = e_who en) ∧
  (g = GToken → ∃ tok, s_stage v = Validated tok ∧ tk_access_token tok = k).
Proof.
  intros Hr Hf Hn He Ha Hea Hg.
  destruct (key_origin _ _ _ _ _ _ _ Hr Hn He) as
    [(r & exp & tok & _ & -> & _)|(g' & m & em & Hk & Hlt & Hm & Hem & Hw & Htok)].
  - exfalso. by eapply fresh_not_urn.
  - assert (g' ≠ GTxCode). { intros ->. destruct (s_stage v); naive_solver. }
    assert (a = m) as -> by by eapply fresh_pos. simplify_eq.
    assert (g = g') as <- by congruence. done.
Qed.

(** ** Keys that are saved once *)

(** After a key that is saved only once has been read and removed, it reads as absent. *)
Lemma burned (c : iconfig) k a b d ea eb ed v r :
  ireach c →
  (∀ m m' em em' v v' x x' o o', c_log c !! m = Some em → c_log c !! m' = Some em' →
     e_ev em = Put k v x o → e_ev em' = Put k v' x' o' → m = m') →
  c_log c !! a = Some ea → e_ev ea = Get k (Some v) →
  c_log c !! b = Some eb → e_ev eb = Purge k true →
  c_log c !! d = Some ed → e_ev ed = Get k r → a < b < d → r = None.
Proof.
  intros Hr Honce Ha Hea Hb Heb Hd Hed [Hab Hbd]. destruct r as [v'|]; [|done]. exfalso.
  destruct (get_source _ _ _ _ _ _ _ Hr Ha Hea (lookup_empty k)) as (m & em & x & o & Hm & Hlm & Hem & _).
  destruct (get_source _ _ _ _ _ _ _ Hr Hd Hed (lookup_empty k))
    as (m' & em' & x' & o' & Hm' & Hlm' & Hem' & _ & Hno).
  assert (m = m') as <- by by eapply Honce.
  destruct (Hno b eb ltac:(lia) Hb) as [_ Hpu].
  pose proof (pos_allowed _ _ _ _ _ Hr Hb) as Hal. unfold allowed in Hal. rewrite Heb in Hal.
  unfold purges_key in Hpu. rewrite Heb, bool_decide_true, Hal in Hpu by done. done.
Qed.

(** The stages whose key is saved once: each is saved once by the request that generated
    the key. *)
Definition one_shot (g : gen_kind) : Prop := g = GAuthCode ∨ g = GUriToken ∨ g = GTransactionId.

Lemma put_once q p h k v x o h' g :
  path (ihandler q) (h ++ Put k v x o :: h') p → one_shot g → key_kind (s_stage v) g →
  ∀ v' x' o', Put k v' x' o' ∈ h → ¬ key_kind (s_stage v') g.
Proof.
  intros Hp Hone Hk v' x' o' Hin Hk'. apply put_source in Hp as Hpf.
  assert (no_puts h → False) as Hnp.
  { intros Hn. eapply Forall_forall in Hn; [|done]. done. }
  assert (no_pending h → ∀ of, s_stage v' = Pending of → False) as Hnpe.
  { intros Hn of Hs. eapply Forall_forall in Hn; [|done]. unfold puts_pending in Hn.
    by rewrite Hs in Hn. }
  assert (∀ r, credential_put r h k v x → False) as Hc.
  { intros r Hcp. unfold credential_put in Hcp.
    destruct (s_stage v); try done; simpl in Hk; [destruct Hone as [?|[?|?]], Hk; congruence|].
    naive_solver. }
  unfold put_from in Hpf.
  destruct q; try (destruct (s_stage v); done).
  - destruct (s_stage v) as [|off|off| | | | |] eqn:Hs; try done; simpl in Hk; subst g.
    + destruct (s_stage v') eqn:Hs'; simpl in Hk'; try done; try (destruct Hk'; done).
      destruct Hpf as (? & ? & ? & ? & ? & _). by eapply Hnpe.
    + destruct Hpf as (? & ? & ? & _). by apply Hnp.
  - destruct (s_stage v); try done. destruct Hpf as (? & ? & ? & ? & ? & _). by apply Hnp.
  - destruct (s_stage v); try done. destruct Hpf as (? & ? & ? & ? & ? & ? & ? & ? & _). by apply Hnp.
  - by eapply Hc.
  - destruct Hpf as (? & ? & ? & ? & ? & ? & Hpf). by eapply Hc.
Qed.

Lemma saved_once (c : iconfig) a ea g k :
  ireach c → fresh (c_log c) → c_log c !! a = Some ea → e_ev ea = X (VGen g k) → one_shot g →
  ∀ m m' em em' v v' x x' o o', c_log c !! m = Some em → c_log c !! m' = Some em' →
     e_ev em = Put k v x o → e_ev em' = Put k v' x' o' → m = m'.
Proof.
  intros Hr Hf Ha Hea Hone.
  assert (g ≠ GTxCode ∧ g ≠ GToken) as [Hg1 Hg2] by (destruct Hone as [?|[?|?]]; subst; done).
  assert (∀ m m' em em' v v' x x' o o', c_log c !! m = Some em → c_log c !! m' = Some em' →
     e_ev em = Put k v x o → e_ev em' = Put k v' x' o' → ¬ m < m') as Hlt.
  { intros m m' em em' v v' x x' o o' Hm Hm' Hem Hem' Hlt.
    destruct (key_fits _ _ _ _ _ _ _ _ _ _ Hr Hf Hm Hem Ha Hea Hg1) as (Hk & _ & Hw & _).
    destruct (key_fits _ _ _ _ _ _ _ _ _ _ Hr Hf Hm' Hem' Ha Hea Hg1) as (Hk' & _ & Hw' & _).
    specialize (Hw Hg2). specialize (Hw' Hg2).
    destruct (pos_path _ _ _ _ _ Hr Hm') as (q & p & es2 & Hq & Hp). rewrite Hem' in Hp.
    eapply (put_once _ _ _ _ _ _ _ _ g Hp Hone Hk' v x o); [|done].
    apply calls_of_elem. exists em. split; [|split; [congruence|done]].
    apply elem_of_list_lookup. exists m. by rewrite lookup_take. }
  intros m m' em em' v v' x x' o o' Hm Hm' Hem Hem'.
  pose proof (Hlt _ _ _ _ _ _ _ _ _ _ Hm Hm' Hem Hem').
  pose proof (Hlt _ _ _ _ _ _ _ _ _ _ Hm' Hm Hem' Hem). lia.
Qed.

(** A request that read and removed such a key leaves it absent for every request that
    starts after it finished. *)
Lemma one_shot_gone (c : iconfig) a ea g k i j v r es1 es2 es3 :
  ireach c → fresh (c_log c) → c_log c !! a = Some ea → e_ev ea = X (VGen g k) → one_shot g →
  calls_of i (c_log c) = es1 ++ Get k (Some v) :: es2 ++ Purge k true :: es3 →
  Get k r ∈ calls_of j (c_log c) → before (c_log c) i j → r = None.
Proof.
  intros Hr Hf Ha Hea Hone Hi Hj Hb.
  destruct (calls_of_pos _ _ _ _ _ Hi) as (gi & egi & Hgi & Hgiw & Hgie & Hgic).
  rewrite app_comm_cons, app_assoc in Hi.
  destruct (calls_of_pos _ _ _ _ _ Hi) as (pi & epi & Hpi & Hpiw & Hpie & Hpic).
  apply calls_of_elem_pos in Hj as (gj & egj & Hgj & Hgjw & Hgje).
  assert (gi < pi) as Hgp.
  { destruct (decide (gi < pi)) as [|Hge]; [done|]. exfalso.
    assert (length (calls_of i (take pi (c_log c))) ≤ length (calls_of i (take gi (c_log c)))) as Hle.
    { rewrite <-(firstn_skipn pi (take gi (c_log c))), take_take, Nat.min_l by lia.
      rewrite calls_of_app, app_length. lia. }
    rewrite Hgic, Hpic, app_length in Hle. simpl in Hle. lia. }
  assert (pi < gj) as Hpg by exact (Hb _ _ _ _ Hpi Hgj Hpiw Hgjw).
  exact (burned c k gi pi gj egi epi egj v r Hr (saved_once c a ea g k Hr Hf Ha Hea Hone)
    Hgi Hgie Hpi Hpie Hgj Hgje (conj Hgp Hpg)).
Qed.

(** The key of a state that was read and that is saved once was generated as such. *)
Lemma read_generated (c : iconfig) i k v g :
  ireach c → Get k (Some v) ∈ calls_of i (c_log c) → key_kind (s_stage v) g → one_shot g →
  ∃ a ea, c_log c !! a = Some ea ∧ e_ev ea = X (VGen g k).
Proof.
  intros Hr Hin Hk Hone. rewrite <-(firstn_all (c_log c)) in Hin.
  destruct (read_pos _ _ _ _ _ Hr Hin) as (ga & m & en & x & o & _ & Hm & Hem).
  destruct (key_origin _ _ _ _ _ _ _ Hr Hm Hem) as
    [(r & exp & tok & Hs & _)|(g' & m' & em & Hk' & _ & Hm' & Hem' & _)].
  - by rewrite Hs in Hk.
  - assert (g = g') as <-; [|eauto].
    unfold key_kind in Hk, Hk'. unfold one_shot in Hone.
    destruct (s_stage v); try congruence; try tauto.
    exfalso. destruct Hone as [Ho|[Ho|Ho]], Hk as [Hk|Hk]; congruence.
Qed.
