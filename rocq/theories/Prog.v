(** Programs over provider calls.

    Every endpoint is an [async fn] generic over a [Provider]; the only points at
    which it can interact with the world, be suspended, or be dropped are the
    provider calls it makes.  The model of an endpoint is the tree of those calls. *)
From Verif Require Import Base.

(** A signature: what the store holds, and which other calls the provider offers.
    [sXR x] is the type of answers to call [x]; [sXE] records a call and its answer. *)
Record sig : Type := Sig {
  sV : Type;
  sX : Type;
  sXR : sX → Type;
  sXE : Type;
  smk : ∀ x : sX, sXR x → sXE;
}.

(** Provider calls.  The first three are [StateStore::get], [put] and [purge]
    (crates/openid/src/provider.rs); [exp] is the expiry passed to [put]. *)
Inductive call (S : sig) : Type :=
| CGet (k : string)
| CPut (k : string) (v : sV S) (exp : Z)
| CPurge (k : string)
| CExt (x : sX S).
Global Arguments CGet {S} k.
Global Arguments CPut {S} k v exp.
Global Arguments CPurge {S} k.
Global Arguments CExt {S} x.

(** Answers.  [get] gives [None] for an error (which includes "not found"); [put]
    and [purge] give [false] for an error. *)
Definition answer {S} (c : call S) : Type :=
  match c with
  | CGet _ => option (sV S)
  | CPut _ _ _ => bool
  | CPurge _ => bool
  | CExt x => sXR S x
  end.

Inductive prog (S : sig) (A : Type) : Type :=
| Ret (a : A)
| Call (c : call S) (k : answer c → prog S A).
Global Arguments Ret {S A} a.
Global Arguments Call {S A} c k.

(** A performed call together with its answer. *)
Inductive event (S : sig) : Type :=
| EGet (k : string) (r : option (sV S))
| EPut (k : string) (v : sV S) (exp : Z) (ok : bool)
| EPurge (k : string) (ok : bool)
| EExt (e : sXE S).
Global Arguments EGet {S} k r.
Global Arguments EPut {S} k v exp ok.
Global Arguments EPurge {S} k ok.
Global Arguments EExt {S} e.

Definition mkev {S} (c : call S) : answer c → event S :=
  match c return answer c → event S with
  | CGet k => λ r, EGet k r
  | CPut k v exp => λ r, EPut k v exp r
  | CPurge k => λ r, EPurge k r
  | CExt x => λ r, EExt (smk S x r)
  end.

(** ** One request: all its paths *)

(** [path p es q]: program [p] can perform the calls [es] and then be at [q]. *)
Fixpoint path {S A} (p : prog S A) (es : list (event S)) (q : prog S A) {struct es} : Prop :=
  match es with
  | [] => p = q
  | e :: es' =>
      match p with
      | Ret _ => False
      | Call c k => ∃ r, e = mkev c r ∧ path (k r) es' q
      end
  end.

(** [runs p es a]: [p] can complete with result [a] after the calls [es]. *)
Definition runs {S A} (p : prog S A) (es : list (event S)) (a : A) : Prop :=
  path p es (Ret a).

(** ** Sequencing with early return ([?]) *)

Fixpoint bind {S E A B} (m : prog S (outcome E A)) (f : A → prog S (outcome E B))
  : prog S (outcome E B) :=
  match m with
  | Ret (Ok a) => f a
  | Ret (Err e) => Ret (Err e)
  | Ret (Panic w) => Ret (Panic w)
  | Call c k => Call c (λ r, bind (k r) f)
  end.

Definition ok {S E A} (a : A) : prog S (outcome E A) := Ret (Ok a).
Definition fail {S E A} (e : E) : prog S (outcome E A) := Ret (Err e).
Definition panic {S E A} (w : string) : prog S (outcome E A) := Ret (Panic w).

Notation "'let!' x := m 'in' k" := (bind m (λ x, k))
  (at level 200, x pattern, m at level 100, k at level 200, right associativity).
Notation "m ;; k" := (bind m (λ _, k)) (at level 100, k at level 200, right associativity).

(** [if !b { return Err(e) }] *)
Definition ensure {S E} (b : bool) (e : E) : prog S (outcome E unit) :=
  if b then ok tt else fail e.

(** [let Some(x) = o else { return Err(e) }], [o.ok_or(e)?] *)
Definition of_opt {S E A} (o : option A) (e : E) : prog S (outcome E A) :=
  match o with Some a => ok a | None => fail e end.

Definition lift {S E A} (o : outcome E A) : prog S (outcome E A) := Ret o.

Definition ext {S E} (x : sX S) : prog S (outcome E (sXR S x)) :=
  Call (CExt x) (λ r, Ret (Ok r)).

Definition get {S E} (k : string) : prog S (outcome E (option (sV S))) :=
  Call (CGet k) (λ r : answer (CGet k), Ret (Ok r)).

(** [StateStore::put(..).await.map_err(..)?] *)
Definition put {S E} (k : string) (v : sV S) (exp : Z) (e : E) : prog S (outcome E unit) :=
  Call (CPut k v exp) (λ r : answer (CPut k v exp), if r : bool then ok tt else fail e).

(** [StateStore::purge(..).await.map_err(..)?] *)
Definition purge {S E} (k : string) (e : E) : prog S (outcome E unit) :=
  Call (@CPurge S k) (λ r : answer (@CPurge S k), if r : bool then ok tt else fail e).

(** ** Many requests, interleaved at provider calls

    The log records every performed call with the request that made it and whether
    the call took effect on the store: a failing [put] or [purge] may or may not
    have taken effect; a successful one always has. *)
Record entry (S : sig) : Type := Entry { e_who : nat; e_ev : event S; e_eff : bool }.
Global Arguments Entry {S}.
Global Arguments e_who {S}.
Global Arguments e_ev {S}.
Global Arguments e_eff {S}.

Notation store S := (gmap string (sV S)).

Definition apply {S} (st : store S) (en : entry S) : store S :=
  match e_ev en with
  | EPut k v _ _ => if e_eff en then <[k := v]> st else st
  | EPurge k _ => if e_eff en then delete k st else st
  | _ => st
  end.

Definition store_after {S} (st0 : store S) (log : list (entry S)) : store S :=
  foldl apply st0 log.

(** What the store may answer: a [get] gives the stored value or fails; a [put] or
    [purge] that reports success has taken effect. *)
Definition allowed {S} (st : store S) (en : entry S) : Prop :=
  match e_ev en with
  | EGet k r => r = None ∨ r = st !! k
  | EPut _ _ _ ok => ok = true → e_eff en = true
  | EPurge _ ok => ok = true → e_eff en = true
  | EExt _ => True
  end.

Record config (S : sig) (Q R : Type) : Type := Config {
  c_log : list (entry S);
  c_pool : list (Q * prog S R);     (* each request with what remains of it *)
}.
Global Arguments Config {S Q R}.
Global Arguments c_log {S Q R}.
Global Arguments c_pool {S Q R}.

(** All executions of a service given by [handler]: requests arrive at any time and
    any unfinished request may make its next call.  A request that is never
    scheduled again models a crash or a dropped future. *)
Inductive reachable {S Q R} (handler : Q → prog S R) (st0 : store S)
  : config S Q R → Prop :=
| reach_init : reachable handler st0 (Config [] [])
| reach_arrive log pool q :
    reachable handler st0 (Config log pool) →
    reachable handler st0 (Config log (pool ++ [(q, handler q)]))
| reach_step log pool i q (c : call S) (k : answer c → prog S R) (r : answer c) (eff : bool) :
    reachable handler st0 (Config log pool) →
    pool !! i = Some (q, Call c k) →
    allowed (store_after st0 log) (Entry i (mkev c r) eff) →
    reachable handler st0
      (Config (log ++ [Entry i (mkev c r) eff]) (<[i := (q, k r)]> pool)).

(** The calls made by request [i]. *)
Definition calls_of {S} (i : nat) (log : list (entry S)) : list (event S) :=
  omap (λ en, if bool_decide (e_who en = i) then Some (e_ev en) else None) log.

(** Request [i] was [q] and has been answered with [r]. *)
Definition answered {S Q R} (c : config S Q R) (i : nat) (q : Q) (r : R) : Prop :=
  c_pool c !! i = Some (q, Ret r).

(** ** One request at a time (executable)

    [run fuel store oracle p] runs [p] against a reliable store; [oracle] answers
    the remaining calls, seeing everything that happened so far in this request. *)
Fixpoint run {S A} (fuel : nat) (st : store S) (orc : list (event S) → ∀ x : sX S, sXR S x)
    (es : list (event S)) (p : prog S A) : option (A * store S * list (event S)) :=
  match p with
  | Ret a => Some (a, st, es)
  | Call c k =>
      match fuel with
      | O => None
      | Datatypes.S fuel =>
          match c return (answer c → prog S A) → _ with
          | CGet key => λ k, let r := st !! key in
              run fuel st orc (es ++ [EGet key r]) (k r)
          | CPut key v exp => λ k,
              run fuel (<[key := v]> st) orc (es ++ [EPut key v exp true]) (k true)
          | CPurge key => λ k,
              run fuel (delete key st) orc (es ++ [EPurge key true]) (k true)
          | CExt x => λ k, let r := orc es x in
              run fuel st orc (es ++ [EExt (smk S x r)]) (k r)
          end k
      end
  end.
