(** The wallet's requests as JSON: C134. *)
From Coq Require Import Lia.
From Verif Require Import Base StringSpec Json CoreModel VcModel Prog ExecSpec IssuerTypes SerdeSpec SerdeModel SerdeProps
  HolderModel HolderSpec HolderProps HolderExample RecordSpec RecordExample SentSpec SentExec SentExample.

(** C134.  In every execution, the token request the wallet sends is read by the issuer, and as it
    was sent except that claims asked of an SD-JWT credential come out as those of a mobile document. *)
Theorem C134_token_requests_partial n (c : hconfig) m i tr r : hreach c → wallet_supplied n c → n ≤ 122 →
  made c m i (HX (EToken tr r)) →
  read de_token_request (write ser_token_request tr) = Some (token_as_read tr).
Proof. exact (λ Hr Hs, token_sent n c Hr Hs m i tr r). Qed.
Print Assumptions C134_token_requests_partial.
(** It is read as it was sent if, and only if, no such claims are in it. *)
Theorem C134_token_requests_same_iff n (c : hconfig) m i tr r : hreach c → wallet_supplied n c → n ≤ 122 →
  made c m i (HX (EToken tr r)) →
  read de_token_request (write ser_token_request tr) = Some tr ↔ no_sd_jwt_claims (tr_authorization_details tr).
Proof. exact (token_sent_iff n c m i tr r). Qed.
Print Assumptions C134_token_requests_same_iff.
(** The same goes for authorization requests, *)
Theorem C134_authorization_requests_partial strict n (c : hconfig) m i req r : hreach c → wallet_supplied n c → metadata_supplied n c → n ≤ 122 →
  made c m i (HX (EAuthorization req r)) →
  read de_request (write ser_request req) = Some (request_as_read req) ∧
  read (de_authorization_request strict) (write ser_authorization_request (ARObject req)) = Some (ARObject (request_as_read req)).
Proof.
  exact (λ Hr Hs Hm Hn H, conj (request_sent n c Hr Hs Hm m i req r Hn H) (authorization_sent strict n c m i req r Hr Hs Hm Hn H)).
Qed.
Print Assumptions C134_authorization_requests_partial.
Theorem C134_authorization_requests_same_iff n (c : hconfig) m i req r : hreach c → wallet_supplied n c → metadata_supplied n c → n ≤ 122 →
  made c m i (HX (EAuthorization req r)) →
  read de_request (write ser_request req) = Some req ↔ no_sd_jwt_claims (ro_authorization_details req).
Proof. exact (request_sent_iff n c m i req r). Qed.
Print Assumptions C134_authorization_requests_same_iff.
(** Credential requests and deferred credential requests are read as they are sent, whatever the
    format of the credential. *)
Theorem C134_credential_requests n (c : hconfig) m i cq r : hreach c → metadata_supplied n c → n ≤ 124 →
  made c m i (HX (ECredential cq r)) →
  read de_credential_request (write ser_credential_request cq) = Some cq.
Proof. exact (λ Hr Hm, credential_sent n c Hr Hm m i cq r). Qed.
Print Assumptions C134_credential_requests.
Theorem C134_deferred_requests (c : hconfig) m i dq r : hreach c → made c m i (HX (EDeferred dq r)) →
  read de_deferred_request (write ser_deferred_request dq) = Some dq.
Proof. intros _ _. exact (deferred_request_text dq). Qed.
Print Assumptions C134_deferred_requests.
(** A wallet does send such claims: offered an SD-JWT credential, it asks for the claims in the
    issuer's own metadata, and the issuer reads that the claims of a mobile document are asked for. *)
Theorem C134_sd_jwt_refuted : ∃ n (c : hconfig), hreach c ∧ wallet_supplied n c ∧ metadata_supplied n c ∧ n ≤ 122 ∧
  (∃ m i tr r tr' l, made c m i (HX (EToken tr r)) ∧ read de_token_request (write ser_token_request tr) = Some tr' ∧
     tr_authorization_details tr = Some [AuthorizationDetail (ByConfigurationId "Badge_SD" (Some (PCSdJwt l))) None] ∧
     tr_authorization_details tr' = Some [AuthorizationDetail (ByConfigurationId "Badge_SD" (Some (PCIsoMdl l))) None]) ∧
  (∃ m i req r req' l, made c m i (HX (EAuthorization req r)) ∧ read de_request (write ser_request req) = Some req' ∧
     ro_authorization_details req = Some [AuthorizationDetail (ByConfigurationId "Badge_SD" (Some (PCSdJwt l))) None] ∧
     ro_authorization_details req' = Some [AuthorizationDetail (ByConfigurationId "Badge_SD" (Some (PCIsoMdl l))) None]).
Proof.
  exists 8, badge. destruct badge_supplied as [Hs Hm]. split; [exact badge_reach|]. split; [exact Hs|]. split; [exact Hm|]. split; [lia|].
  destruct badge_sent as [H1 (req & H2 & E)]. split.
  - do 6 eexists. split; [exact H1|]. split; [apply (token_sent 8 badge badge_reach Hs 7 2 _ None); [lia|exact H1]|]. split; reflexivity.
  - do 6 eexists. split; [exact H2|]. split; [apply (request_sent 8 badge badge_reach Hs Hm 10 3 _ None); [lia|exact H2]|].
    split; [exact E|]. cbn. rewrite E. reflexivity.
Qed.
Print Assumptions C134_sd_jwt_refuted.
(** Two claims of a credential are accepted, a token is asked for them and a credential is asked for. *)
Example C134_example : hreach kept ∧ wallet_supplied 8 kept ∧ metadata_supplied 8 kept ∧
  (∃ m i r, made kept m i (HX (EToken kept_token r))) ∧ no_sd_jwt_claims (tr_authorization_details kept_token) ∧
  (∃ m i r, made kept m i (HX (ECredential (CredentialRequest "http://issuer" "token14" (CIIdentifier "EmployeeID_JWT_1") (Some (PSingle "nonce15"))) r))).
Proof.
  split; [exact kept_reach|]. split; [exact kept_supplied|]. split; [exact kept_metadata|]. destruct kept_sent as [[r1 H1] [r2 H2]].
  split; [by exists 9, 3, r1|]. split; [|by exists 14, 4, r2].
  intros l d id cl [= <-] ->%elem_of_list_singleton. discriminate.
Qed.
