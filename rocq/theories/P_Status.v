(** Properties C55-C59: status lists. *)
From Verif Require Import Base Json CoreModel VcModel StatusModel StatusSpec StatusFacts.

(** A log with two credentials, one of them revoked, reinstated and revoked again. *)
Definition ex_codec : codec := Codec (λ s, s) (λ s, s).
Definition ex_log : list status_log_entry :=
  [StatusLogEntry "cred0" "alice" [StatusValue Revocation 5 1; StatusValue Suspension 6 1];
   StatusLogEntry "cred1" "bob" [StatusValue Revocation 7 0; StatusValue Message 5 200];
   StatusLogEntry "cred0" "alice" [StatusValue Revocation 5 0; StatusValue Revocation 5 1]].

(** C55.  Revocation and suspension lists have entries of one bit.  Bit [p] is set exactly
    when the last status at index [p] is non-zero; ... *)
Theorem C55_each_bit_is_the_last_status cd checks c log out :
  lc_purpose c ≠ Message → lc_size c = 1%N →
  (∀ s, s ∈ statuses log → sv_list_index s < 2 ^ 64)%N →
  bitstring cd checks c log = Ok out →
  ∃ text, out = cd_base64 cd (cd_gzip cd text) ∧ String.length text = N.to_nat 131072 ∧
    ∀ p, (p < 131072)%N →
      let revoked := ∃ s, last_such (λ s, sv_purpose s = lc_purpose c ∧ sv_list_index s = p) (statuses log) s ∧
                          sv_value s ≠ 0%N in
      (String.get (N.to_nat p) text = Some "1"%char ↔ revoked) ∧
      (String.get (N.to_nat p) text = Some "0"%char ↔ ¬ revoked).
Proof. exact (list_bits_1 cd checks c log out). Qed.
Print Assumptions C55_each_bit_is_the_last_status.
(** ... the list is made exactly when every index is inside it. *)
Theorem C55_made_iff_inside cd checks c log :
  lc_purpose c ≠ Message → lc_size c = 1%N →
  (∀ s, s ∈ statuses log → sv_list_index s < 2 ^ 64)%N →
  ((∃ out, bitstring cd checks c log = Ok out) ↔
     ∀ s, s ∈ statuses log → sv_purpose s = lc_purpose c → (sv_list_index s < 131072)%N) ∧
  ((∃ e, bitstring cd checks c log = Err e) ↔
     ∃ s, s ∈ statuses log ∧ sv_purpose s = lc_purpose c ∧ (131072 ≤ sv_list_index s)%N).
Proof. exact (list_iff_1 cd checks c log). Qed.
Print Assumptions C55_made_iff_inside.
Example C55_example :
  let c := ListConfig Revocation 1 1 in
  (∀ s, s ∈ statuses ex_log → sv_list_index s < 2 ^ 64)%N ∧
  (∃ out, bitstring ex_codec true c ex_log = Ok out ∧ String.get 5 out = Some "1"%char ∧
     String.get 6 out = Some "0"%char ∧ String.get 7 out = Some "0"%char) ∧
  ∃ e, bitstring ex_codec true c (ex_log ++ [StatusLogEntry "x" "y" [StatusValue Revocation 131072 0]]) = Err e.
Proof.
  intros c. split; [|split].
  - intros s Hs. apply (Forall_forall (λ s, sv_list_index s < 2 ^ 64)%N (statuses ex_log)); [|done].
    repeat constructor.
  - assert (match bitstring ex_codec true c ex_log with
            | Ok t => bool_decide (String.get 5 t = Some "1"%char ∧ String.get 6 t = Some "0"%char ∧
                                   String.get 7 t = Some "0"%char)
            | _ => false end = true) as H by (vm_compute; reflexivity).
    destruct (bitstring ex_codec true c ex_log) as [out| |]; [|done..]. exists out.
    split; [done|]. by apply bool_decide_eq_true in H.
  - eexists. vm_compute. reflexivity.
Qed.

(** The same for any size of entries, as long as no position exceeds a machine word. *)
Theorem C55_each_bit_any_size cd checks c log out :
  lc_purpose c ≠ Message → addressable c log → bitstring cd checks c log = Ok out →
  ∃ text, out = cd_base64 cd (cd_gzip cd text) ∧ String.length text = N.to_nat 131072 ∧
    ∀ p, (p < 131072)%N →
      (String.get (N.to_nat p) text = Some "1"%char ↔
         ∃ s, last_such (at_place c p) (statuses log) s ∧ sv_value s ≠ 0%N) ∧
      (String.get (N.to_nat p) text = Some "0"%char ↔
         ¬ ∃ s, last_such (at_place c p) (statuses log) s ∧ sv_value s ≠ 0%N).
Proof. exact (list_bits cd checks c log out). Qed.
Print Assumptions C55_each_bit_any_size.

(** C56. *)
Theorem C56_only_own_purpose_matters cd checks c log log' :
  filter (λ s, sv_purpose s = lc_purpose c) (statuses log) =
  filter (λ s, sv_purpose s = lc_purpose c) (statuses log') →
  bitstring cd checks c log = bitstring cd checks c log'.
Proof. exact (list_own_purpose cd checks c log log'). Qed.
Print Assumptions C56_only_own_purpose_matters.
Example C56_example : ∃ log', log' ≠ ex_log ∧
  filter (λ s, sv_purpose s = Revocation) (statuses ex_log) =
  filter (λ s, sv_purpose s = Revocation) (statuses log') ∧
  filter (λ s, sv_purpose s = Revocation) (statuses log') ≠ [].
Proof.
  exists [StatusLogEntry "" "" [StatusValue Revocation 5 1; StatusValue Revocation 7 0; StatusValue Revocation 5 0;
    StatusValue Revocation 5 1; StatusValue Suspension 1000000 1]].
  split; [done|]. split; [vm_compute; reflexivity|]. by vm_compute.
Qed.

(** C57.  Refuted: eight bits are written whatever the size of an entry.  With entries of
    two bits, the message of credential 1 is erased by that of credential 0... *)
Theorem C57_neighbour_erased_refuted :
  let c := ListConfig Message 1 2 in
  let log := [StatusLogEntry "cred1" "bob" [StatusValue Message 1 3];
              StatusLogEntry "cred0" "alice" [StatusValue Message 0 1]] in
  ∃ out, bitstring ex_codec true c log = Ok out ∧
    String.get 2 out = Some "0"%char ∧ String.get 3 out = Some "0"%char.
Proof.
  intros c log.
  assert (match bitstring ex_codec true c log with
          | Ok t => bool_decide (String.get 2 t = Some "0"%char ∧ String.get 3 t = Some "0"%char)
          | _ => false end = true) as H by (vm_compute; reflexivity).
  destruct (bitstring ex_codec true c log) as [out| |]; [|done..]. exists out.
  split; [done|]. by apply bool_decide_eq_true in H.
Qed.
Print Assumptions C57_neighbour_erased_refuted.
(** ... and any message in the last seven places of the list makes the program panic. *)
Theorem C57_end_of_list_panics_refuted cd checks c i v :
  lc_purpose c = Message → (i * lc_size c < 131072)%N → (131072 < i * lc_size c + 8)%N →
  ∃ why, bitstring cd checks c [StatusLogEntry "" "" [StatusValue Message i v]] = Panic why.
Proof. exact (end_of_list cd checks c i v). Qed.
Print Assumptions C57_end_of_list_panics_refuted.
(** Entries of at least eight bits that fit are written as they should: each entry's bits
    are those of its last message, least significant first, and all other bits are 0. *)
Theorem C57_wide_entries_partial cd checks c log :
  lc_purpose c = Message → (8 ≤ lc_size c)%N → addressable c log →
  (∀ s, s ∈ statuses log → sv_purpose s = Message → (place c s + 8 ≤ 131072)%N) →
  ∃ text, bitstring cd checks c log = Ok (cd_base64 cd (cd_gzip cd text)) ∧
    String.length text = N.to_nat 131072 ∧
    (∀ s i, last_such (at_place c (place c s)) (statuses log) s → (i < 8)%N →
       String.get (N.to_nat (place c s + i)) text = Some (if N.testbit (sv_value s) i then "1" else "0")%char) ∧
    ∀ p, (p < 131072)%N →
      (∀ s, s ∈ statuses log → sv_purpose s = Message → ¬ (place c s ≤ p < place c s + 8)%N) →
      String.get (N.to_nat p) text = Some "0"%char.
Proof. exact (wide_entries cd checks c log). Qed.
Print Assumptions C57_wide_entries_partial.
Example C57_example :
  let c := ListConfig Message 1 8 in
  addressable c ex_log ∧ (∀ s, s ∈ statuses ex_log → sv_purpose s = Message → (place c s + 8 ≤ 131072)%N) ∧
  last_such (at_place c 40) (statuses ex_log) (StatusValue Message 5 200).
Proof.
  intros c. split; [|split].
  - intros s Hs. apply (Forall_forall (λ s, sv_purpose s = Message → place c s < usize)%N (statuses ex_log)); [|done].
    repeat constructor.
  - intros s Hs. apply (Forall_forall (λ s, sv_purpose s = Message → place c s + 8 ≤ 131072)%N (statuses ex_log)); [|done].
    repeat constructor; by vm_compute.
  - exists [StatusValue Revocation 5 1; StatusValue Suspension 6 1; StatusValue Revocation 7 0],
      [StatusValue Revocation 5 0; StatusValue Revocation 5 1].
    split; [done|]. split; [done|]. intros y Hy [Hp _].
    repeat (apply elem_of_cons in Hy as [->|Hy]; [done|]). by apply elem_of_nil in Hy.
Qed.

(** C58.  Refuted: the credential can never be made, ... *)
Theorem C58_never_published_refuted issuer c base_url bits ttl now sign :
  ∃ e, status_credential issuer c base_url bits ttl now sign = Err e.
Proof. exact (ex_intro _ _ (never_published issuer c base_url bits ttl now sign)). Qed.
Print Assumptions C58_never_published_refuted.
(** Even if it could, it would be at an address with an empty part in it, whether the base ends
    in a slash or not, and would call its purpose by another name than the standard's
    [statusPurpose]. *)
Theorem C58_address_refuted issuer c base bits ttl :
  (∀ p, base ≠ p +:+ "/") → ∀ b, b = base ∨ b = base +:+ "/" →
  let v := status_list_vc issuer c b bits ttl in
  let url := base +:+ "//" +:+ pretty (lc_list c) in
  vc_id v = Some url ∧ vc_issuer v = KString issuer ∧
  vc_type v = QMany ["VerifiableCredential"; "BitstringStatusListCredential"] ∧
  ∃ m, vc_subject v = QOne (CredentialSubject (Some (url +:+ "#list")) m) ∧
    m ≡ₚ [("type", JStr "BitstringStatusList"); ("purpose", JStr (purpose_name (lc_purpose c))); ("encodedList", JStr bits);
          ("ttl", JNum (pretty (default 300000%N ttl)))].
Proof. exact (list_address issuer c base bits ttl). Qed.
Print Assumptions C58_address_refuted.
Example C58_address_example : (∀ p, "http://status" ≠ p +:+ "/") ∧
  vc_id (status_list_vc "http://issuer" (ListConfig Revocation 1 1) "http://status" "bits" None) = Some "http://status//1".
Proof.
  split; [|reflexivity]. intros p E. pose proof (ends_with_slash p) as H. rewrite <-E in H. discriminate H.
Qed.
(** ... and what is compressed is not a bitstring but a text of 0s and 1s: read as a
    bitstring, whatever the log, the first bit is never set and the third always. *)
Theorem C58_not_a_bitstring_refuted cd checks c log out :
  bitstring cd checks c log = Ok out →
  ∃ content, out = cd_base64 cd (cd_gzip cd content) ∧
    w3c_bit content 0 = Some false ∧ w3c_bit content 2 = Some true.
Proof. exact (text_w3c cd checks c log out). Qed.
Print Assumptions C58_not_a_bitstring_refuted.
(** A reader who expects that text gets the bits back (see C55 and C57 for which they are). *)
Theorem C58_text_decodes_partial cd checks c log out unbase64 gunzip :
  (∀ s, unbase64 (cd_base64 cd s) = s) → (∀ s, gunzip (cd_gzip cd s) = s) →
  bitstring cd checks c log = Ok out →
  ∃ bits, status_bits checks c log = Ok bits ∧ String.length (gunzip (unbase64 out)) = length bits ∧
    ∀ p, String.get p (gunzip (unbase64 out)) = bit_char <$> bits !! p.
Proof. exact (list_decodes cd checks c log out unbase64 gunzip). Qed.
Print Assumptions C58_text_decodes_partial.

(** C59.  Refuted: compiled without overflow checks, an index far outside the list
    marks another credential as revoked. *)
Theorem C59_index_wraps_around_refuted :
  let c := ListConfig Revocation 1 2 in
  let log := [StatusLogEntry "cred" "mallory" [StatusValue Revocation (2 ^ 63) 1]] in
  ∃ out, bitstring ex_codec false c log = Ok out ∧ String.get 0 out = Some "1"%char.
Proof.
  intros c log.
  assert (match bitstring ex_codec false c log with
          | Ok t => bool_decide (String.get 0 t = Some "1"%char) | _ => false end = true) as H
    by (vm_compute; reflexivity).
  destruct (bitstring ex_codec false c log) as [out| |]; [|done..]. exists out.
  split; [done|]. by apply bool_decide_eq_true in H.
Qed.
Print Assumptions C59_index_wraps_around_refuted.
(** Positions that fit in a machine word are refused exactly when outside the list. *)
Theorem C59_refused_iff_outside_partial cd checks c log :
  lc_purpose c ≠ Message → addressable c log →
  ((∃ out, bitstring cd checks c log = Ok out) ↔
     ∀ s, s ∈ statuses log → sv_purpose s = lc_purpose c → (place c s < 131072)%N) ∧
  ((∃ e, bitstring cd checks c log = Err e) ↔
     ∃ s, s ∈ statuses log ∧ sv_purpose s = lc_purpose c ∧ (131072 ≤ place c s)%N).
Proof. exact (list_iff cd checks c log). Qed.
Print Assumptions C59_refused_iff_outside_partial.
