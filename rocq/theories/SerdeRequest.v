(** Authorization requests: reading what was written, as JSON and as a query string. *)
From Coq Require Import Lia.
From Verif Require Import Base StringSpec Json MatcherModel JsonParse JsonText CoreModel VcModel Prog IssuerTypes
  IssuerClaims SerdeSpec SerdeModel SerdeFacts SerdeTrips SerdeText.
Local Arguments String.append : simpl never.

Lemma read_keys_app strict a b r u : read_keys strict (a ++ b) r u =
  match read_keys strict a r u with Some (r, u) => read_keys strict b r u | None => None end.
Proof.
  revert r u. induction a as [|[k v] a IH]; intros r u; [done|]. simpl. destruct (read_key strict k v r u) as [[]|]; [apply IH|done].
Qed.
Lemma read_keys_request strict r : readable_request r →
  read_keys strict (ser_request_entries r) empty_request "" = Some (r, "").
Proof.
  intros H. destruct r as [i rt c ru st cc cm ad sc su is]. unfold ser_request_entries, empty_request.
  cbn [ro_credential_issuer ro_response_type ro_client_id ro_redirect_uri ro_state ro_code_challenge
    ro_code_challenge_method ro_authorization_details ro_scope ro_subject_id ro_issuer_state].
  Ltac stp a n := rewrite (read_keys_app _ a); replace (read_keys _ a _ "") with (Some (n, ""));
    [cbn match|try reflexivity].
  stp (str_entry "credential_issuer" i) (RequestObject i RTCode "" None None "" S256 None None "" None).
  2:{ unfold str_entry. case_bool_decide; [by subst|done]. }
  stp [("response_type", ser_response_type rt); ("client_id", JStr c)] (RequestObject i rt c None None "" S256 None None "" None).
  2:{ by destruct rt. }
  stp (some_entry "redirect_uri" JStr ru) (RequestObject i rt c ru None "" S256 None None "" None).
  2:{ by destruct ru. }
  stp (some_entry "state" JStr st) (RequestObject i rt c ru st "" S256 None None "" None).
  2:{ by destruct st. }
  stp [("code_challenge", JStr cc); ("code_challenge_method", ser_method cm)] (RequestObject i rt c ru st cc cm None None "" None).
  2:{ by destruct cm. }
  stp (some_entry "authorization_details" (ser_list ser_detail) ad) (RequestObject i rt c ru st cc cm ad None "" None).
  2:{ destruct ad as [l|]; [|done]. unfold some_entry. cbn [read_keys]. unfold read_key.
      repeat (rewrite bool_decide_false by discriminate). rewrite bool_decide_true by done.
      rewrite de_details_ser; [done|]. intros d Hd. by apply (H l). }
  stp (some_entry "scope" JStr sc) (RequestObject i rt c ru st cc cm ad sc "" None).
  2:{ by destruct sc. }
  stp [("subject_id", JStr su)] (RequestObject i rt c ru st cc cm ad sc su None).
  by destruct is.
Qed.
Lemma de_authorization_request_ser strict a :
  match a with ARUri u => u ≠ "" | ARObject r => readable_request r end →
  de_authorization_request strict (ser_authorization_request a) = Some a.
Proof.
  destruct a as [u|r]; intros H; unfold de_authorization_request, ser_authorization_request.
  - cbn [obj]. simpl. by rewrite bool_decide_false.
  - unfold ser_request. cbn [obj]. by rewrite read_keys_request.
Qed.

Lemma read_key_readable strict k v r u r' u' : readable_request r → read_key strict k v r u = Some (r', u') → readable_request r'.
Proof.
  intros H. destruct r as [i rt c ru st cc cm ad sc su is]. unfold read_key.
  repeat (case_bool_decide;
    [try (destruct (de_str v); [|done]; by intros [= <- <-]);
     try (destruct (de_response_type v); [|done]; by intros [= <- <-]);
     try (destruct (de_method v); [|done]; by intros [= <- <-])|]).
  - destruct (de_list de_detail v) as [l|] eqn:E; [|done]. intros [= <- <-] l' d [= <-] Hd.
    by apply (de_details_readable v l).
  - destruct strict; [done|]. by intros [= <- <-].
Qed.
Lemma read_keys_readable strict m r u r' u' : readable_request r → read_keys strict m r u = Some (r', u') → readable_request r'.
Proof.
  revert r u. induction m as [|[k v] m IH]; intros r u H; simpl; [by intros [= <- <-]|].
  destruct (read_key strict k v r u) as [[r1 u1]|] eqn:E; [|done]. apply IH. by eapply read_key_readable.
Qed.
Lemma de_authorization_request_readable strict j a : de_authorization_request strict j = Some a →
  match a with ARUri u => u ≠ "" | ARObject r => readable_request r end.
Proof.
  destruct j as [| | | | |m]; try done. unfold de_authorization_request. cbn [obj].
  destruct (read_keys strict m empty_request "") as [[r u]|] eqn:E; [|done]. intros [= <-].
  case_bool_decide; [|done]. by eapply read_keys_readable in E.
Qed.
