(** The stores of the examples, which keep text: [Store] of crates/test-utils/src/store/state.rs, which the example issuer and
    verifier use as their [StateStore]; the example wallet's is the same (examples/wallet/src-tauri/src/provider.rs 40-57). *)
From Verif Require Import Base Prog.

(** 10-13: [Arc<Mutex<HashMap<String, Vec<u8>>>>].  No call panics with the lock held, so that it is never poisoned. *)
Notation files := (gmap string string).

Section store.
Context {S : sig} {Q R : Type} (handler : Q → prog S R).
(** What [serde_json] writes and reads. *)
Context (enc : sV S → string) (dec : string → option (sV S)).
(** 29-34, [get]: what is not there and what is not read are errors alike. *)
Definition text_get (k : string) (fs : files) : option (sV S) := match fs !! k with Some t => dec t | None => None end.
(** 22-42: the calls, each under the lock.  [put] drops the expiry; writing a state never fails. *)
Definition text_call (fs : files) (c : call S) : answer c → files → Prop :=
  match c return answer c → files → Prop with
  | CGet k => λ r fs', r = text_get k fs ∧ fs' = fs
  | CPut k v _ => λ r fs', r = true ∧ fs' = <[k := enc v]> fs
  | CPurge k => λ r fs', r = true ∧ fs' = delete k fs
  | CExt _ => λ _ fs', fs' = fs
  end.
(** All executions over such a store, as in Prog.v. *)
Inductive text_reach : config S Q R → files → Prop :=
| text_init : text_reach (Config [] []) ∅
| text_arrive log pool q fs : text_reach (Config log pool) fs → text_reach (Config log (pool ++ [(q, handler q)])) fs
| text_step log pool i q (c : call S) (k : answer c → prog S R) (r : answer c) fs fs' :
    text_reach (Config log pool) fs → pool !! i = Some (q, Call c k) → text_call fs c r fs' →
    text_reach (Config (log ++ [Entry i (mkev c r) true]) (<[i := (q, k r)]> pool)) fs'.
End store.

(** A store that never fails: what is put is what is found, until it is overwritten or purged. *)
Definition reliable {S Q R} (c : config S Q R) : Prop :=
  ∀ n en, c_log c !! n = Some en → e_eff en = true ∧
    match e_ev en with
    | EGet k r => r = store_after ∅ (take n (c_log c)) !! k
    | EPut _ _ _ b | EPurge _ b => b = true
    | EExt _ => True
    end.
