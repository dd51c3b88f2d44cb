(** crates/status/src/{config,log,bitstring}.rs: status lists. *)
From stdpp Require Export pretty.
From Verif Require Import Base Json CoreModel VcModel.

(** crates/status/src/log.rs 33-46, [StatusValue]; [usize] and [u8] are numbers. *)
Record status_value : Type := StatusValue {
  sv_purpose : status_purpose;
  sv_list_index : N;
  sv_value : N;
}.
(** crates/status/src/log.rs 12-25, [StatusLogEntry]. *)
Record status_log_entry : Type := StatusLogEntry {
  le_credential_id : string;
  le_subject_id : string;
  le_status : list status_value;
}.
(** crates/status/src/config.rs 11-35, [ListConfig]; the messages and the reference, which
    no code reads, are left out. *)
Record list_config : Type := ListConfig {
  lc_purpose : status_purpose;
  lc_list : N;
  lc_size : N;
}.

(** crates/status/src/bitstring.rs 35, [MAX_ENTRIES]. *)
Definition max_entries : N := 131072.

(** Multiplication of [usize]s on a 64-bit machine: it panics on overflow when the
    program is compiled with overflow checks and wraps around when it is not. *)
Definition usize : N := 2 ^ 64.
Definition usize_mul {E} (checks : bool) (a b : N) : outcome E N :=
  if (a * b <? usize)%N then Ok (a * b)%N
  else if checks then Panic "attempt to multiply with overflow" else Ok ((a * b) mod usize)%N.

(** [BitSlice::set] of the bitvec crate: panics out of bounds. *)
Definition bit_set {E} (bits : list bool) (p : N) (b : bool) : outcome E (list bool) :=
  if Nat.ltb (N.to_nat p) (length bits) then Ok (<[N.to_nat p := b]> bits) else Panic "index out of bounds".

(** A [for] loop over a list with state [s]. *)
Fixpoint for_each {E A S} (f : S → A → outcome E S) (s : S) (l : list A) : outcome E S :=
  match l with
  | [] => Ok s
  | x :: r => match f s x with Ok s' => for_each f s' r | Err e => Err e | Panic w => Panic w end
  end.

(** crates/status/src/bitstring.rs 161-166: [view_bits::<Lsb0>] of a [u8] gives its
    eight bits, least significant first. *)
Definition set_message {E} (bits : list bool) (position value : N) : outcome E (list bool) :=
  for_each (λ bits i, bit_set bits (position + i) (N.testbit value i)) bits [0; 1; 2; 3; 4; 5; 6; 7]%N.

(** crates/status/src/bitstring.rs 148-167, the body of the inner loop. *)
Definition set_status (checks : bool) (c : list_config) (bits : list bool) (s : status_value)
  : outcome string (list bool) :=
  if bool_decide (sv_purpose s ≠ lc_purpose c) then Ok bits
  else match usize_mul checks (sv_list_index s) (lc_size c) with
  | Ok position =>
      if (N.of_nat (length bits) <=? position)%N then Err "status index out of range"
      else match lc_purpose c with
      | Revocation | Suspension => bit_set bits position (negb (sv_value s =? 0)%N)
      | Message => set_message bits position (sv_value s)
      end
  | Err e => Err e
  | Panic w => Panic w
  end.

(** crates/status/src/bitstring.rs 146-170: the bits for a log. *)
Definition status_bits (checks : bool) (c : list_config) (issued : list status_log_entry)
  : outcome string (list bool) :=
  for_each (λ bits e, for_each (set_status checks c) bits (le_status e))
    (replicate (N.to_nat max_entries) false) issued.

(** crates/status/src/bitstring.rs 172: one character per bit. *)
Definition bit_char (b : bool) : ascii := if b then "1"%char else "0"%char.
Definition bits_text (bits : list bool) : string := String.string_of_list_ascii (map bit_char bits).

(** The flate2 and base64ct crates: compression and encoding of byte strings (writing to
    memory cannot fail). *)
Record codec : Type := Codec {
  cd_gzip : string → string;
  cd_base64 : string → string;
}.

(** crates/status/src/bitstring.rs 145-181, [bitstring]. *)
Definition bitstring (cd : codec) (checks : bool) (c : list_config) (issued : list status_log_entry)
  : outcome string string :=
  match status_bits checks c issued with
  | Ok bits => Ok (cd_base64 cd (cd_gzip cd (bits_text bits)))
  | Err e => Err e
  | Panic w => Panic w
  end.

(** crates/w3c-vc/src/model/vc.rs 277-285, [Display for StatusPurpose]. *)
Definition purpose_text (p : status_purpose) : string :=
  match p with Revocation => "revocation" | Suspension => "suspension" | Message => "message" end.

(** [str::ends_with] for one character. *)
Fixpoint ends_with (c : ascii) (s : string) : bool :=
  match s with
  | EmptyString => false
  | String c' EmptyString => bool_decide (c = c')
  | String _ s' => ends_with c s'
  end.

(** crates/status/src/bitstring.rs 198-230, [credential].  [now] is the clock, [sign] is
    [proof::create] with the signer (the vercre-infosec crate). *)
Definition status_list_vc (credential_issuer : string) (c : list_config) (base_url bitstring : string)
    (ttl : option N) : vc :=
  let base_url := if ends_with "/" base_url then base_url else base_url +:+ "/" in
  let id := base_url +:+ "/" +:+ pretty (lc_list c) in
  let claims := [("encodedList", JStr bitstring); ("purpose", JStr (purpose_text (lc_purpose c)));
                 ("ttl", JNum (pretty (default 300000%N ttl))); ("type", JStr "BitstringStatusList")] in
  vcb_add_subject (CredentialSubject (Some (id +:+ "#list")) claims)
    (vcb_issuer credential_issuer (vcb_add_type "BitstringStatusListCredential" (vcb_id id vcb_new))).
Definition status_credential (credential_issuer : string) (c : list_config) (base_url bitstring : string)
    (ttl : option N) (now : Z) (sign : vc → Z → outcome string string) : outcome string string :=
  match vcb_build (status_list_vc credential_issuer c base_url bitstring ttl) with
  | Ok v => sign v (timestamp now)
  | Err e => Err e
  | Panic w => Panic w
  end.

(** crates/status/src/bitstring.rs 232-305, [validate]: [todo!()]. *)
Definition validate (status : credential_status) : outcome string bool := Panic "not yet implemented".
