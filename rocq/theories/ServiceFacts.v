(** The issuer's web service: what its requests do, and what its store can hold. *)
From Verif Require Import Base Json CoreModel VcModel Prog ProgFacts ExecFacts IssuerTypes ErrorModel ServiceModel ServiceSpec.

Lemma auth_key_inj a b : auth_key a = auth_key b → a = b.
Proof. unfold auth_key. by intros [=]. Qed.
Lemma par_key_inj a b : par_key a = par_key b → a = b.
Proof. unfold par_key. by intros [=]. Qed.
Lemma auth_par a b : auth_key a ≠ par_key b.
Proof. unfold auth_key, par_key. done. Qed.

(** Walking down a path, one call at a time. *)
Lemma path_call {S A} (c : call S) (k : answer c → prog S A) h e h' p :
  path (Call c k) (h ++ e :: h') p →
  (h = [] ∧ ∃ r, e = mkev c r ∧ path (k r) h' p) ∨
  (∃ r h1, h = mkev c r :: h1 ∧ path (k r) (h1 ++ e :: h') p).
Proof.
  destruct h as [|e1 h]; simpl.
  - intros (r & -> & H). eauto 6.
  - intros (r & -> & H). right. eauto.
Qed.
Lemma path_ret {S A} (a : A) h (e : event S) h' p : path (Ret a) (h ++ e :: h') p → False.
Proof. by destruct h. Qed.
Ltac walk H :=
  lazymatch type of H with
  | path (Ret _) (_ ++ _ :: _) _ => destruct (path_ret _ _ _ _ _ H)
  | path (panic _) (_ ++ _ :: _) _ => destruct (path_ret _ _ _ _ _ H)
  | path (if ?b then _ else _) _ _ => destruct b eqn:?
  | path (match ?b with _ => _ end) _ _ => destruct b eqn:?
  | path (Call _ _) (_ ++ _ :: _) _ =>
      let r := fresh "r" in let h1 := fresh "h" in
      apply path_call in H as [(-> & r & ? & H)|(r & h1 & -> & H)]; simpl in r, H; simplify_eq/=
  end.

Lemma library_path q h e h' p :
  path (library q) (h ++ e :: h') p → h = [] ∧ ∃ o, e = SX (DLibrary q o).
Proof. unfold library. intros H. repeat walk H. eauto. Qed.

Lemma authorize_put host r h k v x b h' p :
  path (w_authorize host r) (h ++ SPut k v x b :: h') p →
  ∃ token, k = auth_key token ∧ v = SAuth r ∧ SX (DCsrf token) ∈ h.
Proof.
  unfold w_authorize. destruct r as [u|o]; intros H; repeat walk H. eexists. repeat split. set_solver.
Qed.
Lemma par_put host r h k v x b h' p :
  path (w_par host r) (h ++ SPut k v x b :: h') p →
  ∃ token, k = par_key token ∧ v = SPar r ∧ SX (DCsrf token) ∈ h.
Proof.
  unfold w_par. intros H. repeat walk H.
  - apply library_path in H as [_ [o Ho]]. done.
  - eexists. repeat split. set_solver.
Qed.
Lemma login_put host u pw t h k v x b h' p :
  path (w_login host u pw t) (h ++ SPut k v x b :: h') p →
  u = "normal_user" ∧ pw = "password" ∧ k = auth_key u ∧ ∃ r, v = SAuth r ∧ SGet (auth_key t) (Some v) ∈ h.
Proof.
  unfold w_login. intros H. repeat walk H.
  repeat match goal with E : negb (String.eqb _ _) = false |- _ => apply negb_false_iff, String.eqb_eq in E end.
  simplify_eq. repeat split. eexists. split; [done|]. set_solver.
Qed.
Lemma put_path w h k v x b h' p :
  path (whandler w) (h ++ SPut k v x b :: h') p →
  (∃ host r token, w = WAuth host r ∧ k = auth_key token ∧ SX (DCsrf token) ∈ h) ∨
  (∃ host r token, w = WPar host r ∧ k = par_key token ∧ SX (DCsrf token) ∈ h) ∨
  (∃ host t, w = WLogin host "normal_user" "password" t ∧ k = auth_key "normal_user" ∧ SGet (auth_key t) (Some v) ∈ h).
Proof.
  intros H. destruct w; cbn [whandler] in H; try (apply library_path in H as [_ [o Ho]]; done).
  - apply authorize_put in H as (t & -> & -> & ?). left. eauto 8.
  - apply par_put in H as (t & -> & -> & ?). right; left. eauto 8.
  - apply login_put in H as (-> & -> & -> & r & -> & ?). right; right. eauto 8.
Qed.

Lemma pos_web c n en : sreach c → c_log c !! n = Some en →
  ∃ w es2 p, received c (e_who en) w ∧ path (whandler w) (calls_of (e_who en) (take n (c_log c)) ++ e_ev en :: es2) p.
Proof.
  intros Hr Hn. destruct (pos_path whandler ∅ c n en Hr Hn) as (w & p & es2 & Hp & H).
  exists w, es2, p. split; [by exists p|done].
Qed.
Lemma before_drawn c n i t : SX (DCsrf t) ∈ calls_of i (take n (c_log c)) → ∃ m, m < n ∧ drawn c m i t.
Proof.
  intros H. apply calls_of_take_elem in H as (m & [w e eff] & Hlt & Hm & Hw & He). simpl in *. subst.
  exists m. split; [done|]. by exists eff.
Qed.

Lemma auth_put c n i k v x b : sreach c → c_log c !! n = Some (Entry i (SPut (auth_key k) v x b) true) →
  token_of_auth c n k ∨
  (k = "normal_user" ∧ ∃ j host t, received c j (WLogin host "normal_user" "password" t) ∧ token_of_auth c n t).
Proof.
  intros Hr. revert i k v x b. induction (lt_wf n) as [n _ IH]. intros i k v x b Hn.
  destruct (pos_web c n _ Hr Hn) as (w & es2 & p & Hw & H). simpl in *.
  apply put_path in H as [(host & r & t & -> & Hk & Ht)|[(host & r & t & -> & Hk & Ht)|(host & t & -> & Hk & Hg)]].
  - apply auth_key_inj in Hk as ->. left. destruct (before_drawn _ _ _ _ Ht) as (m & ? & ?). by exists m, i, host, r.
  - by destruct (auth_par _ _ Hk).
  - apply auth_key_inj in Hk as ->. right. split; [done|].
    apply calls_of_take_elem in Hg as (m & en & Hlt & Hm & Hwho & Hev).
    destruct (get_source whandler ∅ c m en _ v Hr Hm Hev) as (m' & [j e eff] & x' & o & Hlt' & Hm' & He' & Heff & _); [done|].
    simpl in *. subst.
    destruct (IH m' ltac:(lia) _ _ _ _ _ Hm') as [(m1 & i1 & h1 & r1 & ? & ? & ?)|[-> (j1 & h1 & t1 & Hj & (m2 & i2 & h2 & r2 & ? & ? & ?))]].
    + exists (e_who en), host, t. split; [done|]. exists m1, i1, h1, r1. repeat split; try done. lia.
    + exists j1, h1, t1. split; [done|]. exists m2, i2, h2, r2. repeat split; try done. lia.
Qed.
Lemma par_stored c n i k v x b : sreach c → c_log c !! n = Some (Entry i (SPut (par_key k) v x b) true) → token_of_par c n k.
Proof.
  intros Hr Hn. destruct (pos_web c n _ Hr Hn) as (w & es2 & p & Hw & H). simpl in *.
  apply put_path in H as [(host & r & t & -> & Hk & Ht)|[(host & r & t & -> & Hk & Ht)|(host & t & -> & Hk & Hg)]].
  - by destruct (auth_par _ _ (eq_sym Hk)).
  - apply par_key_inj in Hk as ->. destruct (before_drawn _ _ _ _ Ht) as (m & ? & ?). by exists m, i, host, r.
  - by destruct (auth_par _ _ (eq_sym Hk)).
Qed.

(** What is found under a key was put there. *)
Lemma auth_found c n i k v : sreach c → SGet (auth_key k) (Some v) ∈ calls_of i (take n (c_log c)) →
  token_of_auth c n k ∨
  (k = "normal_user" ∧ ∃ j host t, received c j (WLogin host "normal_user" "password" t) ∧ token_of_auth c n t).
Proof.
  intros Hr Hg. apply calls_of_take_elem in Hg as (m & en & Hlt & Hm & Hwho & Hev).
  destruct (get_source whandler ∅ c m en _ v Hr Hm Hev) as (m' & [j e eff] & x' & o & Hlt' & Hm' & He' & Heff & _); [done|].
  simpl in *. subst.
  destruct (auth_put c m' _ _ _ _ _ Hr Hm') as [(m1 & i1 & h1 & r1 & ? & ? & ?)|[-> (j1 & h1 & t1 & Hj & (m2 & i2 & h2 & r2 & ? & ? & ?))]].
  - left. exists m1, i1, h1, r1. repeat split; try done. lia.
  - right. split; [done|]. exists j1, h1, t1. split; [done|]. exists m2, i2, h2, r2. repeat split; try done. lia.
Qed.
Lemma par_found c n i k v : sreach c → SGet (par_key k) (Some v) ∈ calls_of i (take n (c_log c)) → token_of_par c n k.
Proof.
  intros Hr Hg. apply calls_of_take_elem in Hg as (m & en & Hlt & Hm & Hwho & Hev).
  destruct (get_source whandler ∅ c m en _ v Hr Hm Hev) as (m' & [j e eff] & x' & o & Hlt' & Hm' & He' & Heff & _); [done|].
  simpl in *. subst. destruct (par_stored c m' _ _ _ _ _ Hr Hm') as (m1 & i1 & h1 & r1 & ? & ? & ?).
  exists m1, i1, h1, r1. repeat split; try done. lia.
Qed.

(** What the routes pass to the library. *)
Lemma authorize_lib host r h q o h' p :
  path (w_authorize host r) (h ++ SX (DLibrary q o) :: h') p →
  q = QAuthorize r ∧ ∃ object uri v, r = ARObject object ∧ ro_subject_id object ≠ "" ∧ ro_redirect_uri object = Some uri ∧
    SGet (auth_key (ro_subject_id object)) (Some v) ∈ h.
Proof.
  unfold w_authorize. destruct r as [u|ob]; intros H; repeat walk H; split; try done;
    repeat match goal with E : String.eqb _ _ = false |- _ => apply String.eqb_neq in E end;
    do 3 eexists; repeat split; try done; by apply elem_of_list_here.
Qed.
Lemma par_lib host r h q o h' p :
  path (w_par host r) (h ++ SX (DLibrary q o) :: h') p →
  q = QPar (hosted host r) ∧ ro_subject_id r ≠ "" ∧ ∃ v, SGet (par_key (ro_subject_id r)) (Some v) ∈ h.
Proof.
  unfold w_par. intros H. repeat walk H.
  apply library_path in H as [-> [o' [= -> ->]]]. split; [done|].
  repeat match goal with E : String.eqb _ _ = false |- _ => apply String.eqb_neq in E end.
  split; [done|]. eexists. by apply elem_of_list_here.
Qed.
Lemma login_lib host u pw t h q o h' p :
  path (w_login host u pw t) (h ++ SX (DLibrary q o) :: h') p → False.
Proof. unfold w_login. intros H. repeat walk H. Qed.
Lemma lib_path w h q o h' p :
  path (whandler w) (h ++ SX (DLibrary q o) :: h') p →
  match w with
  | WAuth _ r => q = QAuthorize r ∧ ∃ object uri v, r = ARObject object ∧ ro_subject_id object ≠ "" ∧
      ro_redirect_uri object = Some uri ∧ SGet (auth_key (ro_subject_id object)) (Some v) ∈ h
  | WPar host r => q = QPar (hosted host r) ∧ ro_subject_id r ≠ "" ∧ ∃ v, SGet (par_key (ro_subject_id r)) (Some v) ∈ h
  | WLogin _ _ _ _ => False
  | _ => names_issuer q = Some ("http://" +:+ web_host w) ∧ access_token q = web_bearer w ∧ nameless q = nameless (default q (web_body w))
           ∧ (∀ r, q ≠ QAuthorize r) ∧ (∀ r, q ≠ QPar r)
  end.
Proof.
  destruct w; cbn [whandler]; intros H; try (apply library_path in H as [_ [o' [= -> ->]]]; simpl; unfold at_host; by repeat split).
  - by apply authorize_lib in H.
  - by apply par_lib in H.
  - by apply login_lib in H.
Qed.
Lemma passed_path c n i q o : sreach c → passed c n i q o →
  ∃ w es2 p, received c i w ∧ path (whandler w) (calls_of i (take n (c_log c)) ++ SX (DLibrary q o) :: es2) p.
Proof. intros Hr [eff Hn]. exact (pos_web c n _ Hr Hn). Qed.

Lemma authorized c n i q o : sreach c → passed c n i (QAuthorize q) o →
  ∃ host object, received c i (WAuth host (ARObject object)) ∧ q = ARObject object ∧ ro_subject_id object ≠ "" ∧
    is_Some (ro_redirect_uri object) ∧
    (token_of_auth c n (ro_subject_id object) ∨
     (ro_subject_id object = "normal_user" ∧
      ∃ j host' t, received c j (WLogin host' "normal_user" "password" t) ∧ token_of_auth c n t)).
Proof.
  intros Hr H. destruct (passed_path c n i _ o Hr H) as (w & es2 & p & Hw & Hp). apply lib_path in Hp.
  destruct w; try (destruct Hp as (_ & _ & _ & Hp & _); by destruct (Hp q)); try done.
  - destruct Hp as ([= ->] & object & uri & v & -> & Hs & Hu & Hg). exists host, object. repeat split; try done.
    by apply (auth_found c n i _ v Hr) in Hg.
  - by destruct Hp as [? _].
Qed.
Lemma pushed c n i q o : sreach c → passed c n i (QPar q) o →
  ∃ host object, received c i (WPar host object) ∧ ro_subject_id q = ro_subject_id object ∧ ro_subject_id object ≠ "" ∧
    token_of_par c n (ro_subject_id object).
Proof.
  intros Hr H. destruct (passed_path c n i _ o Hr H) as (w & es2 & p & Hw & Hp). apply lib_path in Hp.
  destruct w; try (destruct Hp as (_ & _ & _ & _ & Hp); by destruct (Hp q)); try done.
  - by destruct Hp as [? _].
  - destruct Hp as ([= ->] & Hs & v & Hg). exists host, r. repeat split; try done.
    by apply (par_found c n i _ v Hr) in Hg.
Qed.

Lemma answered_path c i w r : sreach c → answered c i w r → runs (whandler w) (calls_of i (c_log c)) r.
Proof. intros Hr Ha. by eapply reachable_path. Qed.

(** What becomes of the library's answer. *)
Lemma library_result q h q' o h' r : path (library q) (h ++ SX (DLibrary q' o) :: h') (Ret r) → r = ax o.
Proof.
  unfold library. intros H. repeat walk H. destruct h' as [|? ?]; [|done]. by injection H as <-.
Qed.
Lemma authorize_result host object h q o h' r :
  path (w_authorize host (ARObject object)) (h ++ SX (DLibrary q o) :: h') (Ret r) →
  ∃ uri, ro_redirect_uri object = Some uri ∧
  match o with
  | Ok (RAuthorize v) => r = Ok (Redirect (uri +:+ "?code=" +:+ ar_code v))
  | Ok _ => ∃ w, r = Panic w
  | Err e => r = Ok (Redirect (uri +:+ "?" +:+ error_query (error_of e)))
  | Panic w => r = Panic w
  end.
Proof.
  unfold w_authorize. intros H. repeat walk H; eexists; (split; [done|]); destruct h' as [|? ?];
    try done; injection H as <-; by try eexists.
Qed.
Lemma result_path w h q o h' r : path (whandler w) (h ++ SX (DLibrary q o) :: h') (Ret r) → (∀ host x, w ≠ WAuth host x) → r = ax o.
Proof.
  intros H Hw. destruct w; cbn [whandler] in H; try (by apply library_result in H); try (by destruct (Hw host r)).
  - by destruct (Hw host r0).
  - unfold w_par in H. repeat walk H. by apply library_result in H.
  - by apply login_lib in H.
Qed.
Lemma passed_answered c n i q o w r : sreach c → passed c n i q o → answered c i w r →
  ∃ h h', runs (whandler w) (h ++ SX (DLibrary q o) :: h') r.
Proof.
  intros Hr [eff Hn] Ha. apply (answered_path c i w r Hr) in Ha.
  destruct (pos_calls_of i (c_log c) n _ Hn eq_refl) as [es2 He]. simpl in He. rewrite He in Ha. eauto.
Qed.
Lemma received_once c i w w' : received c i w → received c i w' → w = w'.
Proof. intros [p H] [p' H']. congruence. Qed.

Lemma login_redirects c i host u pw t l : sreach c → answered c i (WLogin host u pw t) (Ok (Redirect l)) →
  ∃ v, SGet (auth_key t) (Some v) ∈ calls_of i (take (length (c_log c)) (c_log c)).
Proof.
  intros Hr Ha. apply (answered_path _ _ _ _ Hr) in Ha. rewrite take_ge by lia.
  revert Ha. generalize (calls_of i (c_log c)). intros es H. unfold runs in H. cbn [whandler] in H. unfold w_login in H.
  destruct (negb _); [by destruct es|]. destruct (negb _); [by destruct es|].
  destruct es as [|e es]; [done|]. destruct H as (x & -> & H). simpl in x, H. destruct x as [v|].
  - exists v. apply elem_of_list_here.
  - by destruct es.
Qed.

(** A token is spent by the login it is used for. *)
Lemma login_spends c i host u pw t l : sreach c → answered c i (WLogin host u pw t) (Ok (Redirect l)) →
  ∃ n b eff, c_log c !! n = Some (Entry i (SPurge (auth_key t) b) eff).
Proof.
  intros Hr Ha. apply (answered_path _ _ _ _ Hr) in Ha.
  assert (∃ b, SPurge (auth_key t) b ∈ calls_of i (c_log c)) as [b Hb].
  { revert Ha. generalize (calls_of i (c_log c)). intros es H. unfold runs in H. cbn [whandler] in H. unfold w_login in H.
    destruct (negb _); [by destruct es|]. destruct (negb _); [by destruct es|].
    destruct es as [|e es]; [done|]. destruct H as (x & -> & H). simpl in x, H. destruct x as [[]|]; try by destruct es.
    destruct es as [|e es]; [done|]. destruct H as (b & -> & _). exists b. right. apply elem_of_list_here. }
  apply calls_of_elem_pos in Hb as (n & [w ev eff] & Hn & Hw & He). simpl in Hw, He. subst w ev. eauto.
Qed.
Lemma token_spent c i host u pw t l : sreach c → answered c i (WLogin host u pw t) (Ok (Redirect l)) →
  (∀ n j k eff, c_log c !! n ≠ Some (Entry j (SPurge k false) eff)) →
  ∃ n ev eff, c_log c !! n = Some (Entry i ev eff) ∧
    ∀ m j v eff', n < m → c_log c !! m = Some (Entry j (SGet (auth_key t) (Some v)) eff') →
      ∃ a i' v' x b, n < a < m ∧ c_log c !! a = Some (Entry i' (SPut (auth_key t) v' x b) true).
Proof.
  intros Hr Ha Hp. destruct (login_spends c i host u pw t l Hr Ha) as (n & b & eff & Hn).
  destruct b; [|by destruct (Hp n i (auth_key t) eff)].
  exists n, (SPurge (auth_key t) true), eff. split; [done|]. intros m j v eff' Hm Hg.
  destruct (get_source whandler ∅ c m _ (auth_key t) v Hr Hg eq_refl (lookup_empty _)) as (a & [i' ev' e'] & x & o & Ham & Ha' & He & Hf & Hb).
  simpl in He, Hf. subst ev' e'. exists a, i', v, x, o. split; [|done]. split; [|done].
  destruct (decide (n < a)) as [?|Hna]; [done|]. exfalso.
  destruct (decide (n = a)) as [->|Hne]; [rewrite Hn in Ha'; discriminate Ha'|].
  destruct (Hb n _ ltac:(lia) Hn) as [_ Hk]. unfold purges_key in Hk. cbn in Hk. rewrite bool_decide_true in Hk by done.
  pose proof (pos_allowed _ _ _ _ _ Hr Hn) as Hal. unfold allowed in Hal. cbn in Hal. rewrite Hal in Hk; done.
Qed.

(** What is kept for a login is a request that came to [/auth]. *)
Lemma put_value w h k v x b h' p :
  path (whandler w) (h ++ SPut (auth_key k) v x b :: h') p →
  (∃ host r, w = WAuth host r ∧ v = SAuth r) ∨ (∃ t, SGet (auth_key t) (Some v) ∈ h).
Proof.
  intros H. destruct w; cbn [whandler] in H; try (apply library_path in H as [_ [o Ho]]; done).
  - apply authorize_put in H as (t & _ & -> & _). left. eauto.
  - apply par_put in H as (t & Hk & _ & _). by destruct (auth_par _ _ Hk).
  - apply login_put in H as (-> & -> & _ & r & -> & ?). right. eauto.
Qed.
Lemma auth_value c n i k v x b : sreach c → c_log c !! n = Some (Entry i (SPut (auth_key k) v x b) true) →
  ∃ j host r, received c j (WAuth host r) ∧ v = SAuth r.
Proof.
  intros Hr. revert i k v x b. induction (lt_wf n) as [n _ IH]. intros i k v x b Hn.
  destruct (pos_web c n _ Hr Hn) as (w & es2 & p & Hw & H). simpl in *.
  apply put_value in H as [(host & r & -> & ->)|(t & Hg)]; [by eauto|].
  apply calls_of_take_elem in Hg as (m & en & Hlt & Hm & Hwho & Hev).
  destruct (get_source whandler ∅ c m en _ v Hr Hm Hev) as (m' & [j e eff] & x' & o & Hlt' & Hm' & He' & Heff & _); [done|].
  simpl in *. subst. eapply (IH m'); [lia|done].
Qed.
Lemma login_location c i host u pw t l : sreach c → answered c i (WLogin host u pw t) (Ok (Redirect l)) →
  ∃ j host' r, received c j (WAuth host' r) ∧ l = "http://" +:+ host +:+ "/auth?" +:+ QueryModel.authorization_query r.
Proof.
  intros Hr Ha. pose proof (answered_path _ _ _ _ Hr Ha) as H.
  assert (∃ r, SGet (auth_key t) (Some (SAuth r)) ∈ calls_of i (c_log c) ∧ l = "http://" +:+ host +:+ "/auth?" +:+ QueryModel.authorization_query r) as (r & Hg & ->).
  { revert H. generalize (calls_of i (c_log c)). intros es H. unfold runs in H. cbn [whandler] in H. unfold w_login in H.
    destruct (negb _); [by destruct es|]. destruct (negb _); [by destruct es|].
    destruct es as [|e es]; [done|]. destruct H as (x & -> & H). simpl in x. destruct x as [[r|r]|]; [|by destruct es..].
    exists r. split; [apply elem_of_list_here|]. destruct es as [|e1 es]; [done|]. destruct H as (x1 & _ & H).
    destruct es as [|e2 es]; [done|]. destruct H as (x2 & _ & H). destruct es as [|e3 es]; [|done]. by injection H as <-. }
  apply calls_of_elem_pos in Hg as (m & en & Hm & Hwho & Hev).
  destruct (get_source whandler ∅ c m en _ _ Hr Hm Hev) as (m' & [j e eff] & x' & o & Hlt' & Hm' & He' & Heff & _); [done|].
  simpl in *. subst. destruct (auth_value c m' j t _ x' o Hr Hm') as (j' & host' & r' & Hj & [= ->]). by exists j', host', r'.
Qed.
