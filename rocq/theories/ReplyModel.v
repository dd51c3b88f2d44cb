(** The example verifier's HTTP service (examples/verifier/src/main.rs) and the bodies that the example wallet's clients read
    (examples/wallet/src-tauri/src/provider/issuer_client.rs and verifier_client.rs).  Routing by axum and HTTP itself are not
    modelled: a request is given by its route, its [Host] header, and its path, body or form, already read. *)
From Verif Require Import Base Json JsonParse CoreModel VcModel Prog IssuerTypes MatcherModel VerifierModel SerdeModel DifSerde ErrorModel.

(** 38-46: the routes; /callback and /post have the same handler. *)
Inductive vweb : Type :=
| PostCreate (host : string) (r : create_request_request)
| GetRequest (host object_id : string)
| PostResponse (r : response_request).
(** 53-82: what each handler asks of the library. *)
Definition vroute (w : vweb) : vrequest :=
  match w with
  | PostCreate host r => VCreate (CreateRequestRequest ("http://" +:+ host) (vq_purpose r) (vq_input_descriptors r) (vq_device_flow r))
  | GetRequest host object_id => VObject (RequestObjectRequest ("http://" +:+ host) object_id)
  | PostResponse r => VResponse r
  end.
(** 91-103, [AxResult::into_response]: the status and the body; [None] is a connection closed by a panic.  The service has no route
    to the verifier's metadata. *)
Definition ser_vreply (r : vreply) : json :=
  match r with
  | VRCreate x => ser_create_response x
  | VRObject x => ser_object_response x
  | VRResponse x => ser_response_response x
  | VRMetadata m => m
  end.
Definition vanswer (o : outcome error vreply) : option (Z * string) :=
  match o with
  | Ok r => Some (200%Z, write ser_vreply r)
  | Err e => Some (500%Z, json_text (error_json (error_of e)))
  | Panic _ => None
  end.
(** verifier_client.rs 12-23 and 26-44, issuer_client.rs 14-74: the clients read the body whatever the status is. *)
Definition client {A} (d : json → option A) (answer : Z * string) : option A := read d answer.2.
(** crates/openid/src/issuer.rs 2089-2090, [NotificationResponse]. *)
Definition de_notified : json → option () := obj (λ _, Some ()).
