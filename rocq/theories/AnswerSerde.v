(** The issuer's answers to credential requests, as JSON: the [serde] derives of
    crates/openid/src/issuer.rs 1276-1360. *)
From Verif Require Import Base Json MatcherModel JsonParse CoreModel VcModel Prog IssuerTypes VerifierModel HolderModel
  SerdeModel VcSerde.

Section with_codecs.
Variable cx : codecs.

(** 1309-1327: [CredentialResponseType], flattened: the name of the variant is a member. *)
Definition ser_answer_type (t : wresponse_type) : string * json :=
  match t with
  | WRCredential k => ("credential", ser_kind (ser_vc cx) k)
  | WRCredentials l => ("credentials", ser_list (ser_kind (ser_vc cx)) l)
  | WRTransactionId s => ("transaction_id", JStr s)
  end.
Definition answer_names : list string := ["credential"; "credentials"; "transaction_id"].
Definition de_answer_type (k : string) (j : json) : option wresponse_type :=
  if bool_decide (k = "credential") then match de_kind (de_vc cx) j with Some c => Some (WRCredential c) | None => None end
  else if bool_decide (k = "credentials") then match de_list (de_kind (de_vc cx)) j with Some l => Some (WRCredentials l) | None => None end
  else match de_str j with Some s => Some (WRTransactionId s) | None => None end.

(** 1282-1306: [CredentialResponse]; and 1353-1360: [DeferredCredentialResponse], which has it
    flattened. *)
Definition ser_answer (r : wresponse) : json :=
  JObj ([ser_answer_type (wr_response r)]
        ++ some_entry "c_nonce" JStr (wr_c_nonce r)
        ++ some_entry "c_nonce_expires_in" ser_int (wr_c_nonce_expires_in r)
        ++ some_entry "notification_id" JStr (wr_notification_id r)).
(** Of the members that name a variant the first one counts. *)
Definition de_answer : json → option wresponse := obj (λ m,
  match first_of answer_names m with
  | Some (k, v) =>
      match de_answer_type k v, opt de_str "c_nonce" m, opt (de_int 64) "c_nonce_expires_in" m, opt de_str "notification_id" m with
      | Some t, Some n, Some x, Some i => Some (WResponse t n x i)
      | _, _, _, _ => None
      end
  | None => None
  end).
End with_codecs.
