(** The sample issuer's store of subjects: [DatasetStore] of crates/test-utils/src/store/issuance.rs, which the example
    issuer uses as its [Subject] provider (examples/issuer/src/provider.rs 51-65). *)
From Verif Require Import Base Json Prog.

(** 110-120: [Credential] and [DatasetStore]: what each subject has, by identifier.  The map is behind a mutex, which is
    poisoned when a thread panics while it holds the lock. *)
Record dcred : Type := DCred { dc_configuration : string; dc_claims : list (string * json); dc_pending : bool }.
Notation dtable := (gmap string (gmap string dcred)).
Record dstore : Type := DStore { ds_table : dtable; ds_poisoned : bool }.

(** 133-171: the calls and what they give.  A call between two locks is [Copied]: it has a copy of what the subject has. *)
Inductive dcall : Type :=
| DAuthorize (subject configuration : string)
| DDataset (subject identifier : string).
Global Instance dcall_eq : EqDecision dcall.
Proof. solve_decision. Defined.
Inductive dreply : Type :=
| Identifiers (l : list string)
| Claims (claims : list (string * json)) (pending : bool).
Inductive dstate : Type :=
| Start
| Copied (copy : gmap string dcred)
| Done (r : outcome string dreply).

Definition call_subject (q : dcall) : string := match q with DAuthorize s _ | DDataset s _ => s end.
(** 136-137, 157-158: [self.datasets.lock().expect(..).get(subject_id).unwrap().clone()]: the guard lives until the end of the statement, so
    that the [unwrap] panics with the lock held. *)
Definition locked_copy (s : string) (st : dstore) : dstore * outcome string (gmap string dcred) :=
  if ds_poisoned st then (st, Panic "should lock")
  else match ds_table st !! s with
       | Some m => (st, Ok m)
       | None => (DStore (ds_table st) true, Panic "called `Option::unwrap()` on a `None` value")
       end.
(** 139-146: the identifiers of the configuration.  A [HashMap] has no order; here it is that of [gmap]. *)
Definition of_configuration (configuration : string) (m : gmap string dcred) : list string :=
  omap (λ kc : string * dcred, if bool_decide (dc_configuration kc.2 = configuration) then Some kc.1 else None) (map_to_list m).
Definition dstep (q : dcall) (x : dstate) (st : dstore) : dstore * dstate :=
  match q, x with
  | _, Done r => (st, Done r)
  (* 133-153 *)
  | DAuthorize s configuration, _ =>
      match locked_copy s st with
      | (st, Ok m) =>
          (st, Done (match of_configuration configuration m with
                     | [] => Err "no matching dataset for subject/credential"
                     | l => Ok (Identifiers l)
                     end))
      | (st, Err e) => (st, Done (Err e))
      | (st, Panic w) => (st, Done (Panic w))
      end
  (* 155-159: the second [unwrap] is of the copy, with the lock released *)
  | DDataset s identifier, Start =>
      match locked_copy s st with
      | (st, Ok m) =>
          match m !! identifier with
          | Some _ => (st, Copied m)
          | None => (st, Done (Panic "called `Option::unwrap()` on a `None` value"))
          end
      | (st, Err e) => (st, Done (Err e))
      | (st, Panic w) => (st, Done (Panic w))
      end
  (* 161-170 *)
  | DDataset s identifier, Copied m =>
      match m !! identifier with
      | Some cr =>
          if ds_poisoned st then (st, Done (Panic "should lock"))
          else (DStore (<[s := <[identifier := DCred (dc_configuration cr) (dc_claims cr) false]> m]> (ds_table st)) false,
                Done (Ok (Claims (dc_claims cr) (dc_pending cr))))
      | None => (st, Done (Panic "called `Option::unwrap()` on a `None` value"))
      end
  end.

(** Calls of many threads: each takes the lock when it gets it. *)
Record dconfig : Type := DConfig { d_store : dstore; d_calls : list (dcall * dstate) }.
Inductive dtrans : dconfig → dconfig → Prop :=
| d_arrive st l q : dtrans (DConfig st l) (DConfig st (l ++ [(q, Start)]))
| d_step st l i q x st' x' : l !! i = Some (q, x) → dstep q x st = (st', x') →
    dtrans (DConfig st l) (DConfig st' (<[i := (q, x')]> l)).
Definition dreach (t : dtable) : dconfig → Prop := rtc dtrans (DConfig (DStore t false) []).
(** One call, with nothing in between; and one after the other. *)
Definition drun (q : dcall) (st : dstore) : dstore * outcome string dreply :=
  match dstep q Start st with
  | (st, Done r) => (st, r)
  | (st, x) => match dstep q x st with (st, Done r) => (st, r) | (st, _) => (st, Err "never") end
  end.
Fixpoint druns (l : list dcall) (st : dstore) : dstore * list (outcome string dreply) :=
  match l with
  | [] => (st, [])
  | q :: l => let (st, r) := drun q st in let (st, rs) := druns l st in (st, r :: rs)
  end.
