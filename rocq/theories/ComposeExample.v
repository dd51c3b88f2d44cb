(** A wallet and an issuer that talk to each other, for examples. *)
From stdpp Require Import pretty.
From Verif Require Import Base Json CoreModel VcModel Prog ProgFacts ExecSpec ExecFacts Sched Sha256 IssuerTypes
  IssuerModel IssuerSpec MatcherModel VerifierModel HolderModel HolderSpec ComposeSpec HolderExample.
From Verif Require IssuerExample.
Import IssuerExample.

(** The wallet's [n]-th call to a provider, if it is a request to the issuer, is the issuer's call
    number [to_issuer k log n], when the issuer had [k] others before. *)
Definition is_request (en : entry HSig) : bool :=
  match asked_of_issuer (e_ev en) with Some _ => true | None => false end.
Definition to_issuer (k : nat) (log : list (entry HSig)) (n : nat) : nat :=
  k + length (base.filter (λ en, is_request en = true) (take n log)).

Definition answers_at (ci : iconfig) (k : nat) (e : hevent) : Prop :=
  match c_pool ci !! k with Some (q, Ret (Ok r)) => delivered q r e | _ => False end.
Fixpoint checked (ci : iconfig) (k : nat) (log : list (entry HSig)) : Prop :=
  match log with
  | [] => True
  | en :: log => (if from_issuer (e_ev en) then answers_at ci k (e_ev en) else True) ∧
      checked ci (if is_request en then S k else k) log
  end.
Lemma checked_pos ci k log n en : checked ci k log → log !! n = Some en → from_issuer (e_ev en) = true →
  answers_at ci (to_issuer k log n) (e_ev en).
Proof.
  revert k n. induction log as [|x log IH]; intros k n Hc Hn Hf; [done|]. destruct Hc as [H1 H2].
  destruct n as [|n]; simpl in Hn.
  - injection Hn as ->. rewrite Hf in H1. unfold to_issuer. simpl. by rewrite Nat.add_0_r.
  - specialize (IH _ _ H2 Hn Hf). unfold to_issuer in *. simpl. rewrite filter_cons.
    destruct (is_request x); [|by rewrite decide_False].
    rewrite decide_True by done. simpl. by rewrite Nat.add_succ_r.
Qed.
Lemma sorted_before {S} (log : list (entry S)) i j : sortedb (map e_who log) = true → i < j → before log i j.
Proof.
  intros Hs Hij a b ea eb Ha Hb <- <-. destruct (decide (a < b)) as [?|Hge]; [done|].
  assert (e_who eb ≤ e_who ea); [|lia].
  apply (sortedb_le (map e_who log) b a); [done| | |lia]; rewrite list_lookup_fmap; [by rewrite Hb|by rewrite Ha].
Qed.
Lemma filter_take_lt (log : list (entry HSig)) a b en : log !! a = Some en → is_request en = true → a < b →
  length (base.filter (λ en, is_request en = true) (take a log)) < length (base.filter (λ en, is_request en = true) (take b log)).
Proof.
  revert a b. induction log as [|x log IH]; intros a b Ha Hreq Hab; [done|].
  destruct b as [|b]; [lia|]. destruct a as [|a]; simpl in *.
  - injection Ha as ->. rewrite filter_cons, decide_True by done. simpl. lia.
  - rewrite !filter_cons. specialize (IH a b Ha Hreq ltac:(lia)). case_decide; simpl; lia.
Qed.
Lemma from_issuer_request e eff i : from_issuer e = true → is_request (Entry i e eff) = true.
Proof. destruct e as [| | |[]]; try done; by destruct r. Qed.
Lemma checked_coupled (c : hconfig) ci k : sortedb (map e_who (c_log ci)) = true → checked ci k (c_log c) →
  coupled c ci (to_issuer k (c_log c)).
Proof.
  intros Hs Hc. split.
  - intros n i e [eff Hn] Hf. pose proof (checked_pos _ _ _ _ _ Hc Hn Hf) as H. unfold answers_at in H.
    destruct (c_pool ci !! to_issuer k (c_log c) n) as [[q [[r| |]|]]|] eqn:E; try done. by exists q, r.
  - intros a b i ea eb Hab [ea' Ha] [eb' Hb] Hfa Hfb. apply sorted_before; [done|].
    apply Nat.add_lt_mono_l. eapply filter_take_lt; [exact Ha|by apply from_issuer_request|done].
Qed.

Definition no_proofless (en : entry ISig) : bool :=
  match e_ev en with
  | EExt (VIssuer _ (Some iss)) =>
      forallb (λ p : string * credential_configuration, match cc_proof_types p.2 with Some _ => true | None => false end)
        (is_configurations iss)
  | _ => true
  end.
Lemma proofs_neededb (ci : iconfig) : forallb no_proofless (c_log ci) = true → proofs_needed ci.
Proof.
  intros H i s iss id cfg Hin Hc. apply calls_of_elem_pos in Hin as (n & en & Hn & _ & He).
  rewrite forallb_forall in H. specialize (H en (proj1 (elem_of_list_In _ _) (elem_of_list_lookup_2 _ _ _ Hn))).
  unfold no_proofless in H. rewrite He in H. rewrite forallb_forall in H.
  specialize (H _ (proj1 (elem_of_list_In _ _) Hc)). simpl in H. by destruct (cc_proof_types cfg).
Qed.
(** Here a JWT is its own nonce. *)
Definition decodes_plain (en : entry ISig) : Prop :=
  match e_ev en with
  | EExt (VDecodeProof jwt (Some p)) => p = ProofJwt true (Some jwt) (Some "did:key:holder#key-1")
  | _ => True
  end.
Lemma decodes_plainly (ci : iconfig) : Forall decodes_plain (c_log ci) → decodes_one_way ci.
Proof.
  intros H i j jwt p p' Hi Hj. apply calls_of_elem_pos in Hi as (n & en & Hn & _ & He).
  apply calls_of_elem_pos in Hj as (m & em & Hm & _ & Hem).
  pose proof (proj1 (Forall_forall _ _) H _ (elem_of_list_lookup_2 _ _ _ Hn)) as E1.
  pose proof (proj1 (Forall_forall _ _) H _ (elem_of_list_lookup_2 _ _ _ Hm)) as E2.
  unfold decodes_plain in *. rewrite He in E1. rewrite Hem in E2. congruence.
Qed.

(** A world in which every credential needs a proof. *)
Definition strict_issuer : issuer :=
  Issuer ex_iss None
    [("EmployeeID_JWT", ex_employee);
     ("Developer_JWT", CredentialConfiguration (cc_format ex_developer) (cc_scope ex_developer) (Some ["jwt"]) None)].
Definition w_strict : world := World (λ _, strict_issuer) (w_server w0) (w_clock w0) (w_pending w0) (w_tx w0).
Definition strict_ids : list string := ["EmployeeID_JWT"; "Developer_JWT"].
Definition hw_strict : hworld :=
  HWorld strict_issuer ex_server (issuer_answers w_strict [ex_creates true strict_ids]) [] (ex_vprequest []) (λ _ _, None).
Definition strict_of (c : hconfig) : iconfig := issuer_after w_strict [ex_creates true strict_ids] (c_log c) [].
(** An offer of two credentials; the wallet asks for those named, or for both. *)
Definition strict_wallet (want : option (list string)) : hconfig :=
  hafter hw_strict (hserially [HOffer "client" "sub" (ex_offer true strict_ids); HAccept "id0" None;
    HPin "id0" "123456"; HToken "id0"; HCredentials (CredentialsRequest "id0" want None)]).
