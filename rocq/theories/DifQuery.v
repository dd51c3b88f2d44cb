(** An authorization request passed by value, as the query string of a link. *)
From Coq Require Import Lia.
From Verif Require Import Base StringSpec Json MatcherModel JsonParse JsonText CoreModel VcModel Prog ProgFacts ExecSpec IssuerTypes
  VerifierModel HolderModel HolderSpec SerdeSpec SerdeModel SerdeFacts SerdeTrips SerdeText QueryModel SerdeQuery ErrorModel VcSpec VcSerde VcTrips VcText
  DifSerde DifSpec DifTrips DifExec.
From Verif Require UrlModel UrlSpec UrlFacts.
Local Arguments String.append : simpl never.

Lemma encode_app s t : UrlModel.percent_encode (s +:+ t) = UrlModel.percent_encode s +:+ UrlModel.percent_encode t.
Proof.
  induction s as [|c s IH]; [done|]. rewrite append_cons. cbn [UrlModel.percent_encode]. rewrite IH.
  by destruct (UrlModel.keeps c); rewrite ?append_cons.
Qed.
Lemma starts_with_app n s : starts_with n (n +:+ s) = true.
Proof. induction n as [|c n IH]; [done|]. rewrite append_cons. simpl. by rewrite Ascii.eqb_refl, IH. Qed.
Lemma str_contains_app n a b : str_contains n (a +:+ n +:+ b) = true.
Proof.
  induction a as [|c a IH].
  - rewrite append_nil. destruct (n +:+ b) eqn:E; cbn [str_contains]; rewrite <-E, starts_with_app; done.
  - rewrite append_cons. cbn [str_contains]. rewrite IH. by rewrite orb_true_r.
Qed.
Lemma tail_amp_app l l' : UrlFacts.tail_amp (l ++ l') = UrlFacts.tail_amp l +:+ UrlFacts.tail_amp l'.
Proof. induction l as [|x l IH]; [done|]. simpl. by rewrite IH, !append_assoc. Qed.
Lemma query_mentions m k v m' : m ≠ [] → UrlSpec.harmless_request (parameters (m ++ (k, v) :: m')) →
  ∃ a b, query_of (m ++ (k, v) :: m') = a +:+ UrlModel.percent_encode ("&" +:+ k) +:+ b.
Proof.
  intros Hm H. unfold query_of, UrlModel.url_to_string. rewrite UrlFacts.query_text by done.
  rewrite parameters_app. simpl. destruct (parameters m) as [|x l] eqn:El; [by destruct m|]. simpl app.
  rewrite map_cons, UrlFacts.join_amp_cons, map_app, tail_amp_app. simpl map. cbn [UrlFacts.tail_amp foldr].
  unfold UrlFacts.query_field at 3. cbn [fst snd].
  match goal with |- ∃ a b, UrlModel.percent_encode (?x +:+ ?y +:+ _ +:+ (_ +:+ ?z) +:+ ?w) = _ =>
    exists (UrlModel.percent_encode (x +:+ y)), (UrlModel.percent_encode (z +:+ w)) end.
  change (String "&" (UrlModel.percent_encode k)) with (UrlModel.percent_encode ("&" +:+ k)).
  rewrite <-!encode_app. f_equal. by rewrite !append_assoc.
Qed.
Lemma vp_request_plain r : readable_metadata (vo_client_metadata r) → Forall (λ kv, plain_value kv.2) (ser_vp_request_entries r).
Proof.
  intros (c & _ & Hm). unfold ser_vp_request_entries. rewrite Hm.
  assert (∀ k o, Forall (λ kv, plain_value kv.2) (some_entry k JStr o)) as H2.
  { intros k []; repeat constructor. }
  repeat (apply Forall_app; split); auto; repeat constructor.
  - by destruct (vo_definition r).
  - destruct (vo_client_id_scheme r); repeat constructor.
Qed.
Lemma vp_query_read r : readable_vp_request r → innocents (ser_vp_request r) →
  UrlModel.url_from_str (read de_vp_request) (query_of (ser_vp_request_entries r)) = Some r.
Proof.
  intros Hr Hi. destruct (fine_vp_request 0 r (proj2 Hr)) as [H1 H2]. rewrite query_read.
  - by apply de_vp_request_ser.
  - done.
  - done.
  - apply vp_request_plain, Hr.
  - done.
  - eapply Nat.le_lt_trans; [exact H2|]. apply Nat.ltb_lt. reflexivity.
Qed.
Lemma vp_query_mentions r : readable_vp_request r → innocents (ser_vp_request r) →
  ∃ a b, query_of (ser_vp_request_entries r) = a +:+ "&presentation_definition" +:+ b.
Proof.
  intros Hr Hi.
  assert (∃ m v m', ser_vp_request_entries r = m ++ ("presentation_definition", v) :: m' ∧ m ≠ []) as (m & v & m' & E & Hm).
  { unfold ser_vp_request_entries. do 3 eexists. split.
    - do 6 rewrite app_assoc. reflexivity.
    - done. }
  rewrite E. apply (query_mentions m "presentation_definition" v m' Hm). rewrite <-E.
  apply parameters_harmless; [done|done|]. apply vp_request_plain, Hr.
Qed.

(** ** The wallet does not fetch it *)
Definition fetches (e : hevent) : Prop := match e with EExt (ERequestObject _ _) => True | _ => False end.
Lemma request_fetchless a b es q e :
  path (h_request (a +:+ "&presentation_definition" +:+ b)) es q → e ∈ es → ¬ fetches e.
Proof.
  apply avoids_path. unfold h_request. rewrite str_contains_app. unfold ztry, put_presentation. signless.
Qed.
