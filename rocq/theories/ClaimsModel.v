(** crates/openid/src/issuer.rs 1699-1770: checking a requested set of claims against
    the supported one. *)
From Verif Require Import Base Json CoreModel VcModel Prog IssuerTypes.

(** 1723-1742, [claims_supported]: one claim of the loop body, with the entry found in
    the supported claims. *)
Fixpoint claim_supported (req : claim) (sup : option claim) : bool :=
  match sup with
  | None => false
  | Some s =>
      match req with
      | CEntry _ => true
      | CSet req_nested =>
          match s with
          | CEntry _ => false
          | CSet sup_nested =>
              (fix go (l : claimset) : bool :=
                 match l with
                 | [] => true
                 | (k, c) :: r => claim_supported c (assoc k sup_nested) && go r
                 end) req_nested
          end
      end
  end.
(** 1723-1742, [claims_supported]; [true] is [Ok]. *)
Definition claims_supported (requested supported : claimset) : bool :=
  forallb (λ p, claim_supported p.2 (assoc p.1 supported)) requested.

(** 1745-1769, [claims_required]: one claim of the loop body, with the entry found in
    the requested claims (an absent set counts as an empty one). *)
Fixpoint claim_required (sup : claim) (req : option claim) : bool :=
  match sup with
  | CSet sup_nested =>
      match default (CSet []) req with
      | CSet req_nested =>
          (fix go (l : claimset) : bool :=
             match l with
             | [] => true
             | (k, c) :: r => claim_required c (assoc k req_nested) && go r
             end) sup_nested
      | CEntry _ => false
      end
  | CEntry mandatory =>
      negb (default false mandatory && (match req with None => true | Some _ => false end))
  end.
(** 1745-1769, [claims_required]; [true] is [Ok]. *)
Definition claims_required (requested supported : claimset) : bool :=
  forallb (λ p, claim_required p.2 (assoc p.1 requested)) supported.

(** 1706-1720, [CredentialConfiguration::verify_claims]; [true] is [Ok].  The result of
    [claims_supported] is computed and discarded, as in the code ([let _ = ..]). *)
Definition verify_claims (c : credential_configuration) (requested : claimset) : bool :=
  let _ := match requested with
           | [] => true
           | _ => match format_claims (cc_format c) with
                  | Some claims => claims_supported requested claims
                  | None => true
                  end
           end in
  match format_claims (cc_format c) with
  | Some claims => claims_required requested claims
  | None => true
  end.
