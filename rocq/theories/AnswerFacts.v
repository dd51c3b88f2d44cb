(** The issuer's answers to credential requests survive being written and read. *)
From Coq Require Import Lia DecimalString DecimalZ.
From Verif Require Import Base StringSpec Json MatcherModel JsonParse JsonText CoreModel VcModel Prog ProgFacts ExecSpec ExecFacts IssuerTypes
  IssuerModel IssuerSpec IssuerFacts IssuerExec IssuerOffer IssuerToken VerifierModel HolderModel HolderSpec ComposeSpec
  IssuerClaims SerdeSpec SerdeModel SerdeFacts SerdeTrips SerdeText SerdeProps ErrorModel VcSpec VcSerde VcTrips VcText WireSpec WireFacts
  AnswerSerde AnswerSpec.
Local Arguments String.append : simpl never.
Global Arguments ser_vc : simpl never.
Global Arguments de_vc : simpl never.

Lemma de_token_ser cx k : dates_read cx → (∀ v, k = KObject v → readable_vc v) → de_kind (de_vc cx) (ser_kind (ser_vc cx) k) = Some k.
Proof. intros Hd H. apply de_kind_ser. intros v ->. split; [by apply de_vc_ser, H|done]. Qed.
Lemma de_answer_ser cx r : dates_read cx → readable_reply r → de_answer cx (ser_answer cx r) = Some r.
Proof.
  destruct r as [t n x i]. intros Hd [Hv Hx]. unfold ser_answer, de_answer. cbn [obj wr_response wr_c_nonce wr_c_nonce_expires_in wr_notification_id] in *.
  assert (∀ k, first_of answer_names ([ser_answer_type cx t] ++ k) = Some (ser_answer_type cx t)) as Hf by (intros; by destruct t).
  rewrite Hf. destruct (ser_answer_type cx t) as [k v] eqn:Et.
  assert (de_answer_type cx k v = Some t) as ->.
  { destruct t as [c|l|s]; injection Et as <- <-; unfold de_answer_type; repeat (rewrite bool_decide_true by done || rewrite bool_decide_false by done).
    - rewrite de_token_ser; [done|done|]. intros v' ->. apply Hv. by left.
    - rewrite de_list_ser; [done|]. apply Forall_forall. intros c Hc. apply de_token_ser; [done|]. intros v' ->. by apply Hv.
    - done. }
  assert (k ∈ answer_names) as Hk. { destruct t; injection Et as <- <-; unfold answer_names; set_solver. }
  assert (k ≠ "c_nonce" ∧ k ≠ "c_nonce_expires_in" ∧ k ≠ "notification_id") as (N1 & N2 & N3).
  { unfold answer_names in Hk. split_and!; intros ->; set_solver. }
  unfold opt. cbn [app]. rewrite !lookups_ne by done.
  fold (opt de_str "c_nonce" (some_entry "c_nonce" JStr n ++ some_entry "c_nonce_expires_in" ser_int x ++ some_entry "notification_id" JStr i)).
  fold (opt (de_int 64) "c_nonce_expires_in" (some_entry "c_nonce" JStr n ++ some_entry "c_nonce_expires_in" ser_int x ++ some_entry "notification_id" JStr i)).
  fold (opt de_str "notification_id" (some_entry "c_nonce" JStr n ++ some_entry "c_nonce_expires_in" ser_int x ++ some_entry "notification_id" JStr i)).
  ro JStr n. rewrite (opt_of _ ser_int _ _ x); [|by lk|]. 2:{ intros z ->. split; [by apply de_int_ser, Hx|done]. } by ro JStr i.
Qed.
Lemma de_token_readable cx j v : de_kind (de_vc cx) j = Some (KObject v) → readable_vc v.
Proof. intros H. apply de_kind_inv in H as [H _]. by apply (de_vc_readable cx j). Qed.
Lemma de_answer_readable cx j r : de_answer cx j = Some r → readable_reply r.
Proof.
  destruct j as [| | | | |m]; try done. unfold de_answer. cbn [obj]. intros H. destruct (first_of answer_names m) as [[k v]|]; [|done].
  destruct (de_answer_type cx k v) as [t|] eqn:Et; [|done]. destruct (opt de_str "c_nonce" m) as [n|]; [|done].
  destruct (opt (de_int 64) "c_nonce_expires_in" m) as [x|] eqn:Ex; [|done]. destruct (opt de_str "notification_id" m) as [i|]; [|done].
  injection H as <-. split; cbn [wr_response wr_c_nonce_expires_in].
  - intros w Hw. unfold de_answer_type in Et. repeat case_bool_decide.
    + destruct (de_kind (de_vc cx) v) as [c|] eqn:E; [|done]. injection Et as <-. apply elem_of_list_singleton in Hw as <-.
      by apply (de_token_readable cx v).
    + destruct (de_list _ v) as [l|] eqn:E; [|done]. injection Et as <-. apply de_list_inv in E.
      destruct (proj1 (Forall_forall _ _) E _ Hw) as (j & Hj). by apply (de_token_readable cx j).
    + destruct (de_str v); [|done]. injection Et as <-. by apply elem_of_nil in Hw.
  - intros z ->. apply opt_inv in Ex as (j & _ & Hj). by apply (de_int_inv 64 j).
Qed.
Lemma answer_read_iff cx r : dates_read cx → de_answer cx (ser_answer cx r) = Some r ↔ readable_reply r.
Proof. intros Hd. split; [apply de_answer_readable|by apply de_answer_ser]. Qed.

(** ** Text *)
Lemma fine_answer cx n r : (∀ v, KObject v ∈ answer_credentials (wr_response r) → shallow n (vc_values v)) → fine (5 + n) (ser_answer cx r).
Proof.
  intros H. apply fine_obj. unfold ser_answer. cbn [app]. constructor; [|fns; apply fine_int].
  destruct (wr_response r) as [c|l|s]; cbn [ser_answer_type snd answer_credentials] in *.
  - destruct c as [s|v]; [apply fine_str|]. apply (fine_mono (3 + n)); [lia|]. apply fine_vc, H. by left.
  - apply fine_list. intros [s|v] Hv; [apply fine_str|]. by apply fine_vc, H.
  - apply fine_str.
Qed.
Lemma answer_text cx n r : dates_read cx → readable_reply r →
  (∀ v, KObject v ∈ answer_credentials (wr_response r) → shallow n (vc_values v)) → 5 + n < depth_limit →
  read (de_answer cx) (write (ser_answer cx) r) = Some r.
Proof. intros ? ? ? ?. apply (read_write _ _ _ (5 + n)); [by apply fine_answer|done|by apply de_answer_ser]. Qed.

(** ** In any order, and with anything else *)
Lemma first_of_only {A} ks (m : list (string * A)) k v : (k, v) ∈ m → k ∈ ks →
  (∀ k' v', (k', v') ∈ m → k' ∈ ks → k' = k ∧ v' = v) → first_of ks m = Some (k, v).
Proof.
  intros Hin Hk. induction m as [|[k' v'] m IH]; intros H; [by apply elem_of_nil in Hin|]. simpl. case_bool_decide as Hd.
  - destruct (H k' v') as [-> ->]; [by left|done|done].
  - apply elem_of_cons in Hin as [[= <- <-]|Hin]; [done|]. apply IH; [done|]. intros. apply H; [by right|done].
Qed.
Lemma lookups_perm {A} k (m m' : list (string * A)) : m ≡ₚ m' → lookups k m ≡ₚ lookups k m'.
Proof. intros H. unfold lookups. by rewrite H. Qed.
Lemma lookups_absent {A} k (m : list (string * A)) : k ∉ keys m → lookups k m = [].
Proof.
  induction m as [|[k' v] m IH]; [done|]. intros H. rewrite lookups_ne.
  - apply IH. intros Hin. apply H. by right.
  - intros ->. apply H. by left.
Qed.
Lemma opt_perm {A} (d : json → option A) k m m' : m ≡ₚ m' → opt d k m = opt d k m'.
Proof.
  intros H. apply (lookups_perm k) in H. unfold opt. destruct (lookups k m) as [|a [|b l]].
  - apply Permutation_nil in H. by rewrite H.
  - apply Permutation_singleton_l in H. by rewrite <-H.
  - destruct (lookups k m') as [|a' [|b' l']].
    + symmetry in H. by apply Permutation_nil in H.
    + symmetry in H. by apply Permutation_singleton_l in H.
    + by destruct a, a'.
Qed.
Lemma lookups_app' {A} k (a b : list (string * A)) : lookups k (a ++ b) = lookups k a ++ lookups k b.
Proof. unfold lookups. apply omap_app. Qed.
Lemma answer_any cx r m0 m extra : dates_read cx → readable_reply r → ser_answer cx r = JObj m0 → m0 ++ extra ≡ₚ m →
  (∀ k, k ∈ keys extra → k ∉ ["credential"; "credentials"; "transaction_id"; "c_nonce"; "c_nonce_expires_in"; "notification_id"]) →
  de_answer cx (JObj m) = Some r.
Proof.
  intros Hd Hr Hm0 Hm He. injection Hm0 as <-. pose proof (de_answer_ser cx r Hd Hr) as H. unfold de_answer in *. cbn [obj] in *.
  unfold ser_answer in H. cbn [obj] in H. set (b := [ser_answer_type cx (wr_response r)] ++ _) in H.
  change (b ++ extra ≡ₚ m) in Hm.
  assert (first_of answer_names b = Some (ser_answer_type cx (wr_response r))) as Hf by (subst b; by destruct (wr_response r)).
  assert (first_of answer_names m = Some (ser_answer_type cx (wr_response r))) as ->.
  { destruct (ser_answer_type cx (wr_response r)) as [k v] eqn:Et. apply first_of_only.
    - rewrite <-Hm. subst b. by left.
    - destruct (wr_response r); injection Et as <- <-; unfold answer_names; set_solver.
    - intros k' v' Hin Hk'. rewrite <-Hm in Hin. apply elem_of_app in Hin as [Hin|Hin].
      + subst b. apply elem_of_cons in Hin as [[= -> ->]|Hin]; [done|]. exfalso. cbn [app] in Hin.
        destruct (wr_c_nonce r), (wr_c_nonce_expires_in r), (wr_notification_id r); unfold answer_names in Hk'; cbn [some_entry app] in Hin; set_solver.
      + exfalso. apply (He k'); [by apply (elem_of_list_fmap_1 fst) in Hin|]. unfold answer_names in Hk'. set_solver. }
  rewrite Hf in H. destruct (ser_answer_type cx (wr_response r)) as [k v] eqn:Et.
  assert (∀ A (d : json → option A) k, k ∈ ["c_nonce"; "c_nonce_expires_in"; "notification_id"] → opt d k m = opt d k b) as Ho.
  { intros A d k0 Hk0. rewrite <-(opt_perm d k0 _ _ Hm). unfold opt. rewrite lookups_app', (lookups_absent k0 extra), app_nil_r; [done|].
    intros Hin. apply (He k0 Hin). set_solver. }
  rewrite !Ho by set_solver. exact H.
Qed.
Lemma answer_members cx r : exactly
  [("credential", match wr_response r with WRCredential k => Some (ser_kind (ser_vc cx) k) | _ => None end);
   ("credentials", match wr_response r with WRCredentials l => Some (ser_list (ser_kind (ser_vc cx)) l) | _ => None end);
   ("transaction_id", match wr_response r with WRTransactionId t => Some (JStr t) | _ => None end);
   ("c_nonce", option_map JStr (wr_c_nonce r)); ("c_nonce_expires_in", option_map ser_int (wr_c_nonce_expires_in r));
   ("notification_id", option_map JStr (wr_notification_id r))] (ser_answer cx r).
Proof. destruct r as [[] n x i]; exact_members. Qed.

(** ** Executions *)
Lemma answer_kinds r es resp : runs (credential r) es (Ok resp) → ∀ v, crs_response resp ≠ CRCredential (KObject v).
Proof.
  intros H v. apply credential_ok in H as (st & tok & iss & es_o & auth & cfg & t1 & t2 & es_p & did & subj & ds0 & es_t & _ & _ & _ & _ & _ & _ & _ & _ & H).
  destruct (ds_pending ds0).
  - destruct H as (? & ? & _ & ->). done.
  - destruct H as (? & ? & ? & ? & ? & ? & ? & ? & _ & _ & ->). done.
Qed.
Lemma string_answer cx resp : dates_read cx → (∀ v, crs_response resp ≠ CRCredential (KObject v)) →
  (∀ n, crs_c_nonce_expires_in resp = Some n → fits 64 n) →
  read (de_answer cx) (write (ser_answer cx) (to_wallet resp)) = Some (to_wallet resp).
Proof.
  intros Hd Hv Hn.
  assert (∀ v, KObject v ∉ answer_credentials (wr_response (to_wallet resp))) as Hno.
  { intros v. unfold to_wallet. cbn [wr_response]. destruct (crs_response resp) as [k|] eqn:E; cbn [answer_credentials]; [|apply not_elem_of_nil].
    intros Hin%elem_of_list_singleton. subst k. by apply (Hv v). }
  apply (answer_text cx 0); [done| |by intros v Hin%Hno|unfold depth_limit; lia].
  split; [by intros v Hin%Hno|exact Hn].
Qed.
Lemma issuer_answers cx (c : iconfig) i q rep resp : dates_read cx → ireach c → answered c i q (Ok rep) →
  (rep = RCredential resp ∨ rep = RDeferred resp) → (∀ n, crs_c_nonce_expires_in resp = Some n → fits 64 n) →
  read (de_answer cx) (write (ser_answer cx) (to_wallet resp)) = Some (to_wallet resp).
Proof.
  intros Hd Hr Ha Hrep Hn. apply string_answer; [done| |done].
  apply answered_runs in Ha; [|done].
  destruct q; cbn [ihandler] in Ha; apply handler_outcome in Ha as ([a|e|w] & Hrun & Heq); try done; injection Heq as ->;
    destruct Hrep as [[=]|[=]]; subst.
  - by eapply answer_kinds.
  - apply deferred_ok in Hrun as (? & ? & ? & ? & es & k & _ & _ & _ & _ & Hrun). by eapply answer_kinds.
Qed.
