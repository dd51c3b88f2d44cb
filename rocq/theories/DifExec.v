(** Executions of the verifier and the wallet: what they write can be read. *)
From Verif Require Import Base Json MatcherModel JsonParse JsonText CoreModel VcModel Prog ProgFacts ExecSpec ExecFacts IssuerTypes
  VerifierModel VerifierSpec VerifierFacts VerifierExec HolderModel HolderSpec HolderFacts HolderProps SerdeSpec SerdeModel SerdeFacts SerdeTrips
  SerdeText ErrorModel VcSpec VcSerde DifSerde DifSpec DifTrips.

(** ** Calls a program never makes *)
Fixpoint avoids {S A} (P : event S → Prop) (p : prog S A) : Prop :=
  match p with
  | Ret _ => True
  | Call c k => (∀ r, ¬ P (mkev c r)) ∧ ∀ r, avoids P (k r)
  end.
Lemma avoids_path {S A} (P : event S → Prop) (p q : prog S A) es e : avoids P p → path p es q → e ∈ es → ¬ P e.
Proof.
  revert p. induction es as [|x es IH]; intros p Hs Hp; [by intros ?%elem_of_nil|].
  destruct p as [a|c k]; [done|]. destruct Hp as (r & -> & Hp), Hs as [Hc Hk].
  intros [->|Hin]%elem_of_cons; [apply Hc|by eapply IH].
Qed.
Lemma avoids_bind {S E A B} (P : event S → Prop) (m : prog S (outcome E A)) (f : A → prog S (outcome E B)) :
  avoids P m → (∀ a, avoids P (f a)) → avoids P (bind m f).
Proof.
  intros Hm Hf. induction m as [[a|e|w]|c k IH]; simpl; [apply Hf|done|done|].
  destruct Hm as [Hc Hk]. split; [done|]. intros r. by apply IH.
Qed.
Lemma avoids_of_opt {S E A} (P : event S → Prop) (x : option A) (e : E) : avoids P (of_opt x e).
Proof. by destruct x. Qed.
Lemma avoids_ensure {S E} (P : event S → Prop) b (e : E) : avoids P (ensure b e).
Proof. by destruct b. Qed.
Ltac signless := repeat first
  [ apply avoids_of_opt | apply avoids_ensure | apply avoids_bind; [|intros ?] | progress cbv zeta | done
  | (split; [intros ? []; done|intros ?]) ].

(** ** Only [request_object] signs *)
Definition signs (e : vevent) : Prop := match e with EExt (WSign _ _ _) => True | _ => False end.
Notation signless := (avoids signs).
Lemma signless_vps nonce l : signless (verify_vps nonce l).
Proof.
  induction l as [|v l IH]; [done|]. cbn [verify_vps]. apply avoids_bind; [|intros ?; signless].
  destruct v as [s|v]; cbn [verify_vp]; [signless|]. by destruct (vp_proof v) as [[]|].
Qed.
Lemma signless_descriptor lb j m d : signless (verify_descriptor lb j m d).
Proof.
  unfold verify_descriptor. signless.
  - destruct a2; cbn [verify_vc]; signless.
  - by destruct (satisfied _ _ _).
  - destruct (vc_valid_until _); signless.
Qed.
Lemma signless_response lb r : signless (response lb r).
Proof.
  unfold response, response_verify, response_process. signless.
  - apply signless_vps.
  - generalize (pd_input_descriptors a5). intros l. induction l as [|d l IH]; [done|]. cbn [verify_descriptors].
    apply avoids_bind; [apply signless_descriptor|done].
Qed.

(** What is signed was created. *)
Lemma sign_created lb (c : vconfig) i id o r : reachable (vhandler lb) ∅ c →
  Y (WSign id o r) ∈ calls_of i (c_log c) → ∃ j k q st, created_by c j k q st ∧ o = vs_request st.
Proof.
  intros Hr Hin. pose proof Hin as Hin'. apply calls_of_elem_pos in Hin' as (n & en & Hn & <- & He).
  destruct (pos_path _ _ _ _ _ Hr Hn) as (q & p & _ & Hq & _).
  pose proof (reachable_path _ _ _ _ _ _ Hr Hq) as Hp. apply path_complete in Hp as (es' & a & Hp). apply vhandler_any in Hp.
  destruct q as [q|q|q|q]; destruct Hp as (o' & Hp & _).
  - exfalso. apply create_request_any in Hp as [(_ & Heq & _)|(_ & ? & ? & [(Heq & _)|(? & ? & ? & ? & ? & Heq & _)])];
      [apply app_eq_nil in Heq as [Heq _]; rewrite Heq in Hin; by apply elem_of_nil in Hin| |];
      (assert (Y (WSign id o r) ∈ calls_of (e_who en) (c_log c) ++ es') as H by (apply elem_of_app; by left); rewrite Heq in H;
       repeat (apply elem_of_cons in H as [H|H]; [discriminate H|]); by apply elem_of_nil in H).
  - assert (Y (WSign id o r) ∈ calls_of (e_who en) (c_log c) ++ es') as H by (apply elem_of_app; by left).
    assert (∀ st l, calls_of (e_who en) (c_log c) ++ es' = VGet (or_id q) (Some st) :: l →
              VGet (or_id q) (Some st) ∈ calls_of (e_who en) (c_log c)) as Hget.
    { intros st l Heq. destruct (calls_of _ _) as [|e l']; [by apply elem_of_nil in Hin|]. injection Heq as -> _. by left. }
    apply vrequest_object_any in Hp as [(Heq & _)|(st & [(Heq & _)|(_ & [(Heq & _)|(jwt & Heq & _)])])]; rewrite Heq in H.
    1-3: exfalso; repeat (apply elem_of_cons in H as [H|H]; [discriminate H|]); by apply elem_of_nil in H.
    apply elem_of_cons in H as [[=]|H]. apply elem_of_cons in H as [[=]|H]. apply elem_of_list_singleton in H as [= -> -> ->].
    destruct (get_created lb c Hr _ _ _ (Hget _ _ Heq)) as (j & q' & Hc). exists j, (or_id q), q', st. done.
  - exfalso. eapply (avoids_path signs (response lb q) _ _ (Y (WSign id o r))); [apply signless_response|exact Hp| |exact I]. apply elem_of_app. by left.
  - exfalso. apply vmetadata_any in Hp as (m & Heq & _).
    assert (Y (WSign id o r) ∈ calls_of (e_who en) (c_log c) ++ es') as H by (apply elem_of_app; by left). rewrite Heq in H.
    by apply elem_of_list_singleton in H.
Qed.

(** What is created can be read. *)
Lemma asks_readable r token nonce def_id meta o :
  (∀ d, d ∈ vq_input_descriptors r → readable_descriptor d) → readable_metadata meta →
  asks r token nonce def_id meta o → readable_vp_request o.
Proof.
  intros Hd Hm (_ & _ & _ & Em & _ & _ & _ & (def & Ed & _ & Ei & _ & _ & Ef) & _). split; [|by rewrite Em].
  intros d Hd'. rewrite Ed in Hd'. injection Hd' as <-. split; [|by rewrite Ei].
  intros l Hl. rewrite Ef in Hl. injection Hl as <-. apply NoDup_singleton.
Qed.
Lemma created_readable (c : vconfig) j k q st : well_supplied c → created_by c j k q st → readable_vp_request (vs_request st).
Proof.
  intros [H1 H2] ((p & Hp) & nonce & def_id & meta & t & x & o & Hc & _ & Ha & _). eapply asks_readable; [| |exact Ha].
  - intros d. by eapply H1.
  - eapply (H2 j). rewrite <-Hc. do 2 right. left.
Qed.
Lemma signed_text lb (c : vconfig) i id o r : reachable (vhandler lb) ∅ c → well_supplied c →
  Y (WSign id o r) ∈ calls_of i (c_log c) → read de_vp_request (write ser_vp_request o) = Some o.
Proof.
  intros Hr Hw Hs. destruct (sign_created _ _ _ _ _ _ Hr Hs) as (j & k & q & st & Hc & ->).
  by apply vp_request_text, (created_readable c j k q).
Qed.
Lemma put_created lb (c : vconfig) i k v x b : reachable (vhandler lb) ∅ c → VPut k v x b ∈ calls_of i (c_log c) →
  ∃ q, created_by c i k q v.
Proof.
  intros Hr Hin. apply calls_of_elem_pos in Hin as (n & en & Hn & <- & He).
  destruct (pos_path _ _ _ _ _ Hr Hn) as (q & p & es2 & Hq & _).
  destruct (pos_calls_of (e_who en) _ _ _ Hn eq_refl) as (es3 & Heq).
  pose proof (reachable_path _ _ _ _ _ _ Hr Hq) as Hpath. rewrite Heq, He in Hpath.
  apply put_create in Hpath as (r & def_id & nonce & meta & t & -> & Hd & -> & Hh & -> & ->).
  exists r. split; [eauto|]. exists nonce, def_id, meta, t, (t + minutes 5)%Z, b.
  rewrite Heq, Hh, He. split; [done|]. split; [done|]. split; [apply created_asks|]. done.
Qed.
Lemma saved_text lb cx (c : vconfig) i k v x b : reachable (vhandler lb) ∅ c → well_supplied c → dates_read cx →
  VPut k v x b ∈ calls_of i (c_log c) → read (de_vstate cx) (write (ser_vstate cx) v) = Some v.
Proof.
  intros Hr Hw Hd Hp. destruct (put_created _ _ _ _ _ _ _ Hr Hp) as (q & Hc).
  apply vstate_text; [done|]. by apply (created_readable c i k q).
Qed.
Lemma create_answer_readable lb (c : vconfig) i q x : reachable (vhandler lb) ∅ c → well_supplied c →
  answered c i (VCreate q) (Ok (VRCreate x)) → ∀ o, vr_request_object x = Some o → readable_vp_request o.
Proof.
  intros Hr [H1 H2] Ha o Ho. pose proof (answered_runs lb c Hr _ _ _ Ha) as Hp. apply vhandler_any in Hp as (o' & Hp & Ho').
  destruct o' as [y| |]; [|done..]. injection Ho' as <-.
  apply create_request_saved in Hp as (token & nonce & def_id & meta & t & obj & _ & _ & _ & Hm & _ & Hask & Hh & _).
  unfold handed_over in Hh. destruct (vq_device_flow q); subst x; simpl in Ho; [done|]. injection Ho as <-.
  eapply asks_readable; [| |exact Hask]; [intros d; by eapply H1|by eapply H2].
Qed.
Lemma create_answer_text lb (c : vconfig) i q x : reachable (vhandler lb) ∅ c → well_supplied c →
  answered c i (VCreate q) (Ok (VRCreate x)) → read de_create_response (write ser_create_response x) = Some x.
Proof. intros Hr Hw Ha. apply create_response_text. by eapply create_answer_readable. Qed.

(** ** The wallet's response *)
Lemma presented_shape (c : hconfig) n i uri rr x : hreach c → made c n i (HX (EPresent uri rr x)) →
  ∃ jwt sub, rq_vp_token rr = Some [KString jwt] ∧ rq_submission rr = Some sub.
Proof.
  intros Hr Hm. destruct (made_says c Hr _ _ _ Hm) as (q & Hq & id & -> & Hs).
  destruct Hs as (p & d & u1 & kid & u2 & v & t1 & t2 & t3 & jwt & _ & _ & _ & _ & _ & _ & _ & ->). eauto.
Qed.
Lemma presented_text cx (c : hconfig) n i uri rr x : hreach c → dates_read cx → made c n i (HX (EPresent uri rr x)) →
  read (de_response_request cx) (write (ser_response_request cx) rr) = Some rr.
Proof.
  intros Hr Hd Hm. destruct (presented_shape _ _ _ _ _ _ Hr Hm) as (jwt & sub & Ht & Hsub).
  apply (response_text cx 0); [done| | |].
  - intros l v Hl Hin. rewrite Ht in Hl. injection Hl as <-. by apply elem_of_list_singleton in Hin.
  - unfold response_values. rewrite Ht. intros j Hj. by apply elem_of_nil in Hj.
  - apply Nat.ltb_lt. reflexivity.
Qed.
