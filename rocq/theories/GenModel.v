(** crates/core/src/gen.rs and pkce.rs: random strings. *)
From Verif Require Import Base Sha256.

(** gen.rs 78-81, [random_string]: [draws] are the numbers drawn by
    [fastrand::usize(..chars.len())], one for each character.  All character sets are
    ASCII, so [chars] and bytes agree.  [None] is an index out of bounds. *)
Fixpoint random_string (draws : list nat) (charset : string) : option string :=
  match draws with
  | [] => Some ""
  | d :: r =>
      match String.get d charset, random_string r charset with
      | Some c, Some s => Some (String c s)
      | _, _ => None
      end
  end.

(** gen.rs 11-17 *)
Definition pin_chars : string := "0123456789".
Definition pin_len : nat := 6.
Definition safe_chars : string :=
  "ABCDEFGHIJKLMNOPQRSTUVWXYZabcdefghijklmnopqrstuvwxyz0123456789)(*&^%$#@!~".
Definition state_len : nat := 32.

(** pkce.rs 7-9 *)
Definition pkce_chars : string := "ABCDEFGHIJKLMNOPQRSTUVWXYZabcdefghijklmnopqrstuvwxyz0123456789-.~_".
Definition pkce_min_len : nat := 43.
Definition pkce_max_len : nat := 128.

(** What [fastrand] may draw for a string of length [len] over [charset]. *)
Definition drawn (len : nat) (charset : string) (draws : list nat) : Prop :=
  length draws = len ∧ ∀ d, d ∈ draws → d < String.length charset.

(** gen.rs 21-68: [auth_code], [issuer_state], [nonce], [notification_id], [uri_token],
    [token] and [transaction_id] have the same body. *)
Definition is_random_token (s : string) : Prop :=
  ∃ draws rnd, drawn state_len safe_chars draws ∧ random_string draws safe_chars = Some rnd ∧
    s = base64url (bytes_of_string rnd).

(** gen.rs 72-74, [tx_code]. *)
Definition is_tx_code (s : string) : Prop :=
  ∃ draws, drawn pin_len pin_chars draws ∧ random_string draws pin_chars = Some s.

(** pkce.rs 13-16, [code_verifier]: the length is drawn from [MIN_LEN..=MAX_LEN]. *)
Definition is_code_verifier (s : string) : Prop :=
  ∃ len draws, pkce_min_len ≤ len ≤ pkce_max_len ∧ drawn len pkce_chars draws ∧
    random_string draws pkce_chars = Some s.
