(** vercre-verifier: the endpoints [create_request], [request_object], [response] and
    [metadata], with their types (crates/openid/src/verifier.rs) and saved state
    (vercre-verifier/src/state.rs). *)
From Verif Require Import Base Json CoreModel VcModel Prog IssuerTypes MatcherModel.

(** ** Types *)

(** crates/openid/src/verifier.rs 69-95, [DeviceFlow]. *)
Inductive device_flow : Type := CrossDevice | SameDevice.
Global Instance device_flow_eq : EqDecision device_flow.
Proof. solve_decision. Defined.

(** crates/openid/src/verifier.rs 230-244, [ResponseType]. *)
Inductive vp_response_type : Type := VpToken | VpTokenIdToken | VpCode.

(** crates/openid/src/verifier.rs 248-318, [ClientIdScheme]. *)
Inductive client_id_scheme : Type := SchemeRedirectUri | SchemeDid.

(** crates/openid/src/verifier.rs 45-64, [CreateRequestRequest]; [client_id_scheme] is
    never read. *)
Record create_request_request : Type := CreateRequestRequest {
  vq_client_id : string;
  vq_purpose : string;
  vq_input_descriptors : list input_descriptor;
  vq_device_flow : device_flow;
}.

(** crates/openid/src/verifier.rs 119-226, [RequestObject].  The client's metadata
    ([Verifier], 608-628), which is only copied, is a JSON value. *)
Record vp_request : Type := VpRequest {
  vo_response_type : vp_response_type;
  vo_client_id : string;
  vo_redirect_uri : option string;
  vo_response_mode : option string;
  vo_response_uri : option string;
  vo_scope : option string;
  vo_nonce : string;
  vo_state : option string;
  vo_definition : kind presentation_definition;
  vo_client_id_scheme : option client_id_scheme;
  vo_client_metadata : json;
}.

(** crates/openid/src/verifier.rs 99-108, [CreateRequestResponse]. *)
Record create_request_response : Type := CreateRequestResponse {
  vr_request_object : option vp_request;
  vr_request_uri : option string;
}.

(** crates/openid/src/verifier.rs 397-404, [RequestObjectRequest]. *)
Record request_object_request : Type := RequestObjectRequest {
  or_client_id : string;
  or_id : string;
}.

(** crates/openid/src/verifier.rs 419-427, [RequestObjectType]. *)
Inductive request_object_response : Type :=
| RoObject (o : vp_request)
| RoJwt (jwt : string).

(** crates/openid/src/verifier.rs 506-529, [ResponseRequest]. *)
Record response_request : Type := ResponseRequest {
  rq_vp_token : option (list (kind vp));
  rq_submission : option presentation_submission;
  rq_state : option string;
}.

(** crates/openid/src/verifier.rs 534-563, [ResponseResponse]. *)
Record response_response : Type := ResponseResponse {
  rs_redirect_uri : option string;
  rs_response_code : option string;
}.

(** vercre-verifier/src/state.rs 22-31, [State]. *)
Record vstate : Type := VState {
  vs_expires_at : Z;
  vs_request : vp_request;
}.

(** vercre-verifier/src/state.rs 14-20, [Expire::duration]. *)
Definition expire_request : Z := minutes 5.

(** ** Provider calls other than the store

    Decoding a JWT ([jws::decode] with [verify_key!], crates/w3c-vc/src/lib.rs 36-63)
    parses it, resolves the DID URL in its [kid] header and checks the signature with
    the key found there; it fails as a whole or gives the [kid] and the claims.  For a
    credential the answer also carries its JSON, [Claims::to_json], [None] if that
    fails. *)
Record signed_vp : Type := SignedVp { sp_kid : string; sp_claims : vp_claims }.
Record signed_vc : Type := SignedVc {
  sv_kid : string;
  sv_claims : vc_claims;
  sv_json : option json;
}.
Inductive vgenerator : Type := GvUriToken | GvNonce | GvDefinitionId.
Inductive vcall : Type :=
| YNow
| YGen (g : vgenerator)
| YVerifier (id : string)
| YSigner (id : string)
| YSign (id : string) (o : vp_request)
| YDecodeVp (jwt : string)
| YDecodeVc (jwt : string)
| YParseVc (j : json).
Definition vans (x : vcall) : Type :=
  match x with
  | YNow => Z
  | YGen _ => string
  | YVerifier _ => option json
  | YSigner _ => bool
  | YSign _ _ => option string
  | YDecodeVp _ => option signed_vp
  | YDecodeVc _ => option signed_vc
  | YParseVc _ => bool
  end.
Inductive vev : Type :=
| WNow (t : Z)
| WGen (g : vgenerator) (s : string)
| WVerifier (id : string) (r : option json)
| WSigner (id : string) (r : bool)
| WSign (id : string) (o : vp_request) (r : option string)
| WDecodeVp (jwt : string) (r : option signed_vp)
| WDecodeVc (jwt : string) (r : option signed_vc)
| WParseVc (j : json) (r : bool).
Definition vmk (x : vcall) : vans x → vev :=
  match x return vans x → vev with
  | YNow => WNow
  | YGen g => WGen g
  | YVerifier id => WVerifier id
  | YSigner id => WSigner id
  | YSign id o => WSign id o
  | YDecodeVp t => WDecodeVp t
  | YDecodeVc t => WDecodeVc t
  | YParseVc j => WParseVc j
  end.
Definition VSig : sig := Sig vstate vcall vans vev vmk.
Notation vevent := (event VSig).
Definition vprog (A : Type) : Type := prog VSig (outcome error A).
Definition ycall (x : vcall) : vprog (vans x) := @ext VSig error x.
Definition vget (k : string) : vprog (option vstate) := @get VSig error k.
Definition vput (k : string) (v : vstate) (exp : Z) (e : error) : vprog unit := @put VSig error k v exp e.
Definition vpurge (k : string) (e : error) : vprog unit := @purge VSig error k e.

(** ** Libraries: the matcher's engines, and serde's text of the parts of a presentation
    whose members are not modelled (credentials given as objects, integrity proofs). *)
Record libs : Type := Libs {
  lb_engine : engine;
  lb_vc_json : vc → json;
  lb_proof_json : quota integrity_proof → json;
}.

(** ** create_request.rs *)

(** 98-105, [verify]. *)
Definition create_request_verify (r : create_request_request) : vprog unit :=
  ensure (match vq_input_descriptors r with [] => false | _ => true end)
    (InvalidRequest "no credentials specified").

(** 107-167, [process]. *)
Definition create_request_process (r : create_request_request) : vprog create_request_response :=
  let! def_id := ycall (YGen GvDefinitionId) in
  let def := PresentationDefinition def_id (vq_input_descriptors r) None (Some (vq_purpose r))
               (Some [("jwt_vc", ClaimFormat (Some ["EdDSA"]) None)]) in
  let! uri_token := ycall (YGen GvUriToken) in
  let! meta := ycall (YVerifier (vq_client_id r)) in
  let! meta := of_opt meta (InvalidRequest "invalid client_id") in
  let! nonce := ycall (YGen GvNonce) in
  let cross := bool_decide (vq_device_flow r = CrossDevice) in
  let req_obj :=
    VpRequest VpToken
      (vq_client_id r +:+ (if cross then "/post" else "/callback")) None
      (if cross then Some "direct_post" else None)
      (if cross then Some (vq_client_id r +:+ "/post") else None) None
      nonce (Some uri_token) (KObject def) (Some SchemeRedirectUri) meta in
  let response :=
    CreateRequestResponse (if cross then None else Some req_obj)
      (if cross then Some (vq_client_id r +:+ "/request/" +:+ uri_token) else None) in
  let! t := ycall YNow in
  let state := VState (t + expire_request)%Z req_obj in
  vput uri_token state (vs_expires_at state) (ServerError "issue saving state") ;;
  ok response.

(** 90-95, [create_request]. *)
Definition create_request (r : create_request_request) : vprog create_request_response :=
  create_request_verify r ;; create_request_process r.

(** ** request_object.rs 34-65, [request_object]. *)
Definition vrequest_object (r : request_object_request) : vprog request_object_response :=
  let! st := vget (or_id r) in
  let! st := of_opt st (ServerError "issue fetching state") in
  let req_obj := vs_request st in
  ensure (bool_decide (vo_client_id req_obj = or_client_id r +:+ "/post"))
    (InvalidRequest "client ID mismatch") ;;
  let! signer := ycall (YSigner (or_client_id r)) in
  ensure signer (ServerError "issue  resolving signer") ;;
  let! jwt := ycall (YSign (or_client_id r) req_obj) in
  let! jwt := of_opt jwt (ServerError "issue encoding jwt") in
  ok (RoJwt jwt).

(** ** crates/w3c-vc/src/proof.rs 155-180, [verify] for a presentation: the presentation
    and its nonce.  [None] is an error. *)
Definition verify_vp (v : kind vp) : vprog (option (vp * string)) :=
  match v with
  | KString token =>
      let! r := ycall (YDecodeVp token) in
      ok (match r with
          | Some s => Some (vpc_vp (sp_claims s), vpc_nonce (sp_claims s))
          | None => None
          end)
  | KObject v =>
      match vp_proof v with
      | Some (QOne p) => ok (Some (v, default "" (ip_challenge p)))
      | _ => ok None
      end
  end.

(** ** response.rs *)

(** 72-89: check each presentation's nonce. *)
Fixpoint verify_vps (nonce : string) (l : list (kind vp)) : vprog (list vp) :=
  match l with
  | [] => ok []
  | v :: rest =>
      let! r := verify_vp v in
      let! r := of_opt r (ServerError "issue verifying VP proof") in
      ensure (bool_decide (r.2 = nonce)) (InvalidRequest "nonce does not match") ;;
      let! vs := verify_vps nonce rest in
      ok (r.1 :: vs)
  end.

(** [serde_json::to_value] of a [Kind], a [Quota] and a presentation
    (crates/w3c-vc/src/model/vp.rs 24-63); keys in order. *)
Definition kind_json {A} (f : A → json) (k : kind A) : json :=
  match k with KString s => JStr s | KObject a => f a end.
Definition quota_json {A} (f : A → json) (q : quota A) : json :=
  match q with QOne a => f a | QMany l => JArr (map f l) end.
Definition member {A} (k : string) (f : A → json) (o : option A) : list (string * json) :=
  match o with Some a => [(k, f a)] | None => [] end.
Definition vp_json (lb : libs) (v : vp) : json :=
  JObj ([("@context", JArr (map (kind_json (λ j, j)) (vp_context v)))] ++
        member "holder" JStr (vp_holder v) ++
        member "id" JStr (vp_id v) ++
        member "proof" (lb_proof_json lb) (vp_proof v) ++
        [("type", quota_json JStr (vp_type v))] ++
        member "verifiableCredential" (λ l, JArr (map (kind_json (lb_vc_json lb)) l)) (vp_credential v)).

(** 114-119: the value JSON paths are resolved against. *)
Definition vps_json (lb : libs) (vps : list vp) : json :=
  match vps with
  | [v] => vp_json lb v
  | _ => JArr (map (vp_json lb) vps)
  end.

(** 126: [desc_map.iter().find]. *)
Fixpoint find_mapping (id : string) (l : list descriptor_map) : option descriptor_map :=
  match l with
  | [] => None
  | m :: rest => if bool_decide (dm_id m = id) then Some m else find_mapping id rest
  end.

(** 153-168, with crates/w3c-vc/src/proof.rs 145-154: the credential at a node. *)
Definition verify_vc (node : json) : vprog signed_vc :=
  match node with
  | JStr token =>
      let! r := ycall (YDecodeVc token) in
      of_opt r (InvalidRequest "invalid VC proof")
  | JObj _ =>
      let! parses := ycall (YParseVc node) in
      ensure parses (ServerError "issue deserializing vc") ;;
      fail (InvalidRequest "invalid VC proof")
  | _ => fail (InvalidRequest "unexpected VC format")
  end.

(** 124-188, the body of the loop over the input descriptors. *)
Definition verify_descriptor (lb : libs) (vp_val : json) (map : list descriptor_map)
    (input : input_descriptor) : vprog unit :=
  let! m := of_opt (find_mapping (id_id input) map)
      (InvalidRequest "input descriptor mapping req_obj not found") in
  let format := pn_format (dm_nested m) in
  ensure (match id_format input with Some fmt => has_key format fmt | None => true end)
    (InvalidRequest "invalid format") ;;
  let! nodes := of_opt (en_query (lb_engine lb) (pn_path (dm_nested m)) vp_val)
      (ServerError "issue parsing JSON Path") in
  let! node := of_opt (match nodes with [n] => Some n | _ => None end)
      (InvalidRequest "no match for path_nested") in
  let! s := verify_vc node in
  let! met :=
    match satisfied (lb_engine lb) (id_constraints input) (sv_json s) with
    | Ok b => ok b
    | Err _ => fail (ServerError "issue matching constraints")
    | Panic w => panic w
    end in
  ensure met (InvalidRequest "input constraints not satisfied") ;;
  match vc_valid_until (vcc_vc (sv_claims s)) with
  | None => ok tt
  | Some exp =>
      let! t := ycall YNow in
      ensure (negb (Z.ltb exp t)) (InvalidRequest "credential has expired")
  end.

Fixpoint verify_descriptors (lb : libs) (vp_val : json) (map : list descriptor_map)
    (l : list input_descriptor) : vprog unit :=
  match l with
  | [] => ok tt
  | d :: rest => verify_descriptor lb vp_val map d ;; verify_descriptors lb vp_val map rest
  end.

(** 56-195, [verify]. *)
Definition response_verify (lb : libs) (r : response_request) : vprog unit :=
  let! key := of_opt (rq_state r) (InvalidRequest "client state not found") in
  let! st := vget key in
  let! st := of_opt st (InvalidRequest "state not found") in
  let saved := vs_request st in
  let! vp_token := of_opt (rq_vp_token r) (InvalidRequest "vp_token not founnd") in
  let! vps := verify_vps (vo_nonce saved) vp_token in
  let! subm := of_opt (rq_submission r) (InvalidRequest "no presentation_submission") in
  let! def := of_opt (match vo_definition saved with KObject d => Some d | KString _ => None end)
      (InvalidRequest "presentation_definition_uri is unsupported") in
  ensure (bool_decide (pb_definition_id subm = pd_id def))
    (InvalidRequest "definition_ids do not match") ;;
  verify_descriptors lb (vps_json lb vps) (pb_descriptor_map subm) (pd_input_descriptors def).

(** 198-216, [process]. *)
Definition response_process (r : response_request) : vprog response_response :=
  let! key := of_opt (rq_state r) (InvalidRequest "client state not found") in
  vpurge key (ServerError "issue purging state") ;;
  ok (ResponseResponse (Some "http://localhost:3000/cb") None).

(** 42-48, [response]. *)
Definition response (lb : libs) (r : response_request) : vprog response_response :=
  response_verify lb r ;; response_process r.

(** ** metadata.rs 19-33 *)
Definition vmetadata (client_id : string) : vprog json :=
  let! m := ycall (YVerifier client_id) in
  of_opt m (ServerError "issue getting metadata").

(** ** The service *)
Inductive vrequest : Type :=
| VCreate (r : create_request_request)
| VObject (r : request_object_request)
| VResponse (r : response_request)
| VMetadata (client_id : string).
Inductive vreply : Type :=
| VRCreate (r : create_request_response)
| VRObject (r : request_object_response)
| VRResponse (r : response_response)
| VRMetadata (m : json).
Definition vhandler (lb : libs) (q : vrequest) : prog VSig (outcome error vreply) :=
  match q with
  | VCreate r => let! x := create_request r in ok (VRCreate x)
  | VObject r => let! x := vrequest_object r in ok (VRObject x)
  | VResponse r => let! x := response lb r in ok (VRResponse x)
  | VMetadata id => let! x := vmetadata id in ok (VRMetadata x)
  end.
