(** Facts about client registration. *)
From Verif Require Import Base StringSpec Json CoreModel VcModel Prog ProgFacts ExecSpec ExecFacts IssuerTypes
  ClaimsModel Sha256 IssuerModel IssuerSpec IssuerFacts IssuerWp IssuerExec IssuerOffer IssuerToken
  IssuerExpiry IssuerCredential IssuerNonce.

Lemma register_iff r es o cl : runs (register r) es o →
  (o = Ok cl ↔ ∃ st, es = [Get (rr_access_token r) (Some st); X (VRegister (rr_client_metadata r) (Some cl))]).
Proof.
  intros H. split.
  - intros ->. unfold register in H. apply runs_bind_ok in H as (e1 & e2 & st & -> & H1 & H).
    apply runs_sget in H1 as ->. apply runs_bind_ok in H as (e3 & e4 & st' & -> & H2 & H).
    apply runs_of_opt in H2 as [-> ->].
    apply runs_bind_ok in H as (e5 & e6 & c' & -> & H3 & H). apply runs_xcall in H3 as ->.
    apply runs_of_opt in H as [-> ->]. by exists st'.
  - intros (st & ->). eapply runs_det; [exact H|]. unfold register.
    apply runs_bind_ok. eexists [_], [_], (Some st). split; [done|]. split; [by apply runs_sget|].
    apply runs_bind_ok. eexists [], [_], st. split; [done|]. split; [by apply runs_of_opt|].
    apply runs_bind_ok. eexists [_], [], (Some cl). split; [done|]. split; [by apply (runs_xcall (XRegister _))|].
    by apply runs_of_opt.
Qed.

(** Where the access token of an answered request comes from. *)
Lemma register_token (c : iconfig) i r cl :
  ireach c → answered c i (QRegister r) (Ok (RRegister cl)) →
  (∃ tok en, en ∈ c_log c ∧ rr_access_token r = "urn:ietf:params:oauth:request_uri:" +:+ tok ∧
     e_ev en = X (VGen GUriToken tok)) ∨
  (∃ g en, en ∈ c_log c ∧ g ≠ GTxCode ∧ g ≠ GNonce ∧ e_ev en = X (VGen g (rr_access_token r))).
Proof.
  intros Hr Hi. apply answered_runs in Hi as Hri; [|done].
  apply handler_outcome in Hri as ([a|e|w] & Hri & Heq); [|done|done].
  destruct (proj1 (register_iff _ _ _ a Hri) eq_refl) as (st & Hes).
  assert (Get (rr_access_token r) (Some st) ∈ calls_of i (take (length (c_log c)) (c_log c))) as Hg.
  { rewrite firstn_all, Hes. left. }
  destruct (read_pos _ _ _ _ _ Hr Hg) as (g & m & em & x' & o' & Hlt & Hm & Hem).
  destruct (key_origin c m em _ _ _ _ Hr Hm Hem) as [(? & ? & tok & Hs' & Hk & Hin)|(g' & b & eb & Hk & _ & Hb & Heb & _)].
  - left. apply calls_of_take_elem in Hin as (n' & en & _ & Hn' & _ & He). exists tok, en.
    split; [by eapply elem_of_list_lookup_2|]. done.
  - right. exists g', eb. split; [by eapply elem_of_list_lookup_2|].
    destruct (s_stage st); cbn in Hk; try done; try (subst g'; done). destruct Hk as [->| ->]; done.
Qed.
