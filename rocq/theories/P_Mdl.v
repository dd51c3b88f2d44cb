(** Properties C70-C74: mobile driving licences. *)
From Verif Require Import Base Json Sha256 MdlModel MdlSpec MdlFacts.

(** A data set, an encoder and a signer for the examples; the second draw repeats the
    first one (negated). *)
Definition c70_dataset : list (string * json) :=
  [("org.iso.18013.5.1", JObj [("family_name", JStr "Person"); ("given_name", JStr "Normal")]); ("empty", JObj [])].
Definition c70_enc : encoder :=
  Encoder (λ it, Some (Z.to_N (it_id it) :: it_random it ++ bytes_of_string (it_element it)))
          (λ s, Some (mso_device_key s ++ concat (map snd (concat (map snd (mso_digests s))))))
          (λ m, Some (cose_signature (md_issuer_auth m))).
Definition c70_signer : signer := Signer (Some [1; 2; 3]%N) (λ l, 7%N :: l) EdDSA "did:web:issuer#key".
Definition c70_run (checked : bool) (draws : list Z) : option (outcome string string) :=
  to_credential checked c70_enc draws [[9]; [8]]%N (seconds 100) (seconds 101) (seconds 102) c70_dataset c70_signer.

(** C70.  Whatever is drawn, in an issued licence the items of each name space are the
    elements of the data set, one each, and the signed table has exactly one digest for
    each item, under the item's own id, of the item as encoded. *)
Theorem C70_every_element_covered checked enc draws salts t1 t2 t3 dataset sg out :
  NoDup (keys dataset) →
  to_credential checked enc draws salts t1 t2 t3 dataset sg = Some (Ok out) →
  ∃ m s, consists_of enc out m s ∧
    ∀ ns, map element (items_of m ns) = elements_of dataset ns ∧ covers enc (items_of m ns) (digests_of s ns).
Proof.
  intros Hn H. destruct (covered checked enc draws salts t1 t2 t3 dataset sg out Hn H) as (m & s & Hc & Hall).
  exists m, s. split; [exact Hc|]. intros ns. destruct (Hall ns) as (H1 & H2 & _). exact (conj H1 H2).
Qed.
Print Assumptions C70_every_element_covered.
(** Nothing is left out silently: every name space of the data set was an object. *)
Theorem C70_no_claim_dropped checked enc draws salts t1 t2 t3 dataset sg out :
  to_credential checked enc draws salts t1 t2 t3 dataset sg = Some (Ok out) →
  ∀ ns v, (ns, v) ∈ dataset → ∃ m, v = JObj m.
Proof. exact (not_objects checked enc draws salts t1 t2 t3 dataset sg out). Qed.
Print Assumptions C70_no_claim_dropped.
Example C70_example :
  NoDup (keys c70_dataset) ∧ (∃ out, c70_run true [5; -5; 6]%Z = Some (Ok out)) ∧
  (∃ s, mdl_name_spaces true c70_enc c70_dataset (MdlState [] [] [5; -5; 6]%Z [[9]; [8]]%N) = Some (Ok s) ∧
     map it_id (default [] (assoc "org.iso.18013.5.1" (ms_items s))) = [5; 6]%Z) ∧
  c70_run true [5; -5]%Z = None ∧
  to_credential true c70_enc [5]%Z [[9]]%N 0 0 0 [("family_name", JStr "Person")] c70_signer = Some (Err "invalid dataset").
Proof.
  split; [by apply (bool_decide_unpack _); vm_compute|]. split; [eexists; vm_compute; reflexivity|].
  split; [eexists; split; [vm_compute; reflexivity|reflexivity]|]. split; vm_compute; reflexivity.
Qed.

(** C71.  "The device key is the holder's" fails for every request: the device key is the
    issuer's own signing key (no holder key is even passed in), so a holder with another
    key is never the one that the licence is bound to. *)
Theorem C71_device_key_is_the_issuers_refuted checked enc draws salts t1 t2 t3 dataset sg out holder_key :
  to_credential checked enc draws salts t1 t2 t3 dataset sg = Some (Ok out) →
  sg_public_key sg ≠ Some holder_key →
  ∃ m s, consists_of enc out m s ∧ Some (mso_device_key s) = sg_public_key sg ∧ mso_device_key s ≠ holder_key.
Proof.
  intros H Hk. destruct (device_key_is checked enc draws salts t1 t2 t3 dataset sg out H) as (m & s & Hc & Hd).
  exists m, s. split; [exact Hc|]. split; [exact Hd|]. intros Heq. apply Hk. rewrite <-Hd, Heq. reflexivity.
Qed.
Print Assumptions C71_device_key_is_the_issuers_refuted.
Example C71_example :
  (∃ out, c70_run false [5; 6]%Z = Some (Ok out)) ∧ sg_public_key c70_signer ≠ Some [4; 5; 6]%N.
Proof. split; [eexists; vm_compute; reflexivity|done]. Qed.

(** C72.  Digest ids are below 2^31 and not negative, as ISO 18013-5 asks, as long as the
    least 32-bit number is not drawn; *)
Theorem C72_ids_valid_partial checked enc draws salts t1 t2 t3 dataset sg out :
  NoDup (keys dataset) → (∀ x, x ∈ draws → i32 x ∧ x ≠ i32_min) →
  to_credential checked enc draws salts t1 t2 t3 dataset sg = Some (Ok out) →
  ∃ m s, consists_of enc out m s ∧ ∀ ns it, it ∈ items_of m ns → valid_id (it_id it).
Proof. exact (ids_valid checked enc draws salts t1 t2 t3 dataset sg out). Qed.
Print Assumptions C72_ids_valid_partial.
(** when it is drawn, an optimised build issues a licence with a negative id, and a build
    with overflow checks panics. *)
Theorem C72_least_number_refuted :
  ∃ enc draws salts dataset sg,
    (∀ x, x ∈ draws → i32 x) ∧ NoDup (keys dataset) ∧
    (∃ out, to_credential false enc draws salts 0 0 0 dataset sg = Some (Ok out)) ∧
    (∃ s it, mdl_name_spaces false enc dataset (MdlState [] [] draws salts) = Some (Ok s) ∧
      assoc "ns" (ms_items s) = Some [it] ∧ ¬ valid_id (it_id it)) ∧
    ∃ w, to_credential true enc draws salts 0 0 0 dataset sg = Some (Panic w).
Proof.
  exists c70_enc, [i32_min], [[9]]%N, [("ns", JObj [("family_name", JStr "Person")])], c70_signer.
  split; [intros x ->%elem_of_list_singleton; unfold i32, i32_min; lia|].
  split; [by apply (bool_decide_unpack _); vm_compute|].
  split; [eexists; vm_compute; reflexivity|].
  split; [|eexists; vm_compute; reflexivity].
  eexists _, _. split; [vm_compute; reflexivity|]. split; [reflexivity|]. unfold valid_id. simpl. lia.
Qed.
Print Assumptions C72_least_number_refuted.
(** That is the only panic. *)
Theorem C72_only_panic_partial checked enc draws salts t1 t2 t3 dataset sg w :
  to_credential checked enc draws salts t1 t2 t3 dataset sg = Some (Panic w) → checked = true ∧ i32_min ∈ draws.
Proof. exact (panics checked enc draws salts t1 t2 t3 dataset sg w). Qed.
Print Assumptions C72_only_panic_partial.
Example C72_example :
  (∀ x, x ∈ [5; -5; 6]%Z → i32 x ∧ x ≠ i32_min) ∧ NoDup (keys c70_dataset) ∧
  ∃ out, c70_run true [5; -5; 6]%Z = Some (Ok out).
Proof.
  split; [|split; [by apply (bool_decide_unpack _); vm_compute|eexists; vm_compute; reflexivity]].
  intros x Hx. unfold i32, i32_min. repeat (apply elem_of_cons in Hx as [->|Hx]; [lia|]). by apply elem_of_nil in Hx.
Qed.

(** C73.  The validity window is in order and ends a year of 365 days after issuance (if
    the clock does not go back, and does not jump by most of a year while issuing). *)
Theorem C73_validity_window checked enc draws salts t1 t2 t3 dataset sg out :
  (t1 ≤ t2 ≤ t3)%Z → (t3 ≤ t1 + seconds (364 * 86400))%Z →
  to_credential checked enc draws salts t1 t2 t3 dataset sg = Some (Ok out) →
  ∃ m s, consists_of enc out m s ∧
    (mso_signed s ≤ mso_valid_from s < mso_valid_until s)%Z ∧
    mso_valid_until s = (timestamp t1 + 365 * 86400)%Z.
Proof. exact (validity checked enc draws salts t1 t2 t3 dataset sg out). Qed.
Print Assumptions C73_validity_window.
Example C73_example :
  (seconds 100 ≤ seconds 101 ≤ seconds 102)%Z ∧ (seconds 102 ≤ seconds 100 + seconds (364 * 86400))%Z ∧
  ∃ out, c70_run true [5; 6]%Z = Some (Ok out).
Proof. split; [by vm_compute|]. split; [by vm_compute|]. eexists. vm_compute. reflexivity. Qed.

(** C74.  The signature is the issuer's, over the encoded security object in the payload,
    and names the issuer's key; *)
Theorem C74_signed_by_the_issuer_partial checked enc draws salts t1 t2 t3 dataset sg out :
  to_credential checked enc draws salts t1 t2 t3 dataset sg = Some (Ok out) →
  ∃ m s, consists_of enc out m s ∧
    cose_signature (md_issuer_auth m) = sg_sign sg (cose_payload (md_issuer_auth m)) ∧
    cose_key_id (md_issuer_auth m) = sg_verification_method sg ∧ sg_algorithm sg = EdDSA.
Proof. exact (signature_is checked enc draws salts t1 t2 t3 dataset sg out). Qed.
Print Assumptions C74_signed_by_the_issuer_partial.
(** but it is not a COSE signature: it is never over the structure that RFC 9052 says is
    signed, so for no signer with distinct signatures for distinct messages is it the
    signature that a COSE verifier checks. *)
Theorem C74_not_a_cose_signature_refuted checked enc draws salts t1 t2 t3 dataset sg out :
  (∀ a b, sg_sign sg a = sg_sign sg b → a = b) →
  to_credential checked enc draws salts t1 t2 t3 dataset sg = Some (Ok out) →
  ∃ m s, consists_of enc out m s ∧
    cose_signature (md_issuer_auth m) ≠ sg_sign sg (sig_structure (cose_payload (md_issuer_auth m))).
Proof.
  intros Hinj H. destruct (signature_is checked enc draws salts t1 t2 t3 dataset sg out H) as (m & s & Hc & Hs & _).
  exists m, s. split; [exact Hc|]. rewrite Hs. intros Heq%Hinj.
  pose proof (sig_structure_longer (cose_payload (md_issuer_auth m))) as Hl. rewrite <-Heq in Hl. lia.
Qed.
Print Assumptions C74_not_a_cose_signature_refuted.
Example C74_example :
  (∀ a b, sg_sign c70_signer a = sg_sign c70_signer b → a = b) ∧ (∃ out, c70_run true [5; 6]%Z = Some (Ok out)) ∧
  sig_structure [1; 2]%N = [132; 106; 83; 105; 103; 110; 97; 116; 117; 114; 101; 49; 67; 161; 1; 39; 64; 66; 1; 2]%N.
Proof. split; [by intros a b [= ->]|]. split; [eexists|]; vm_compute; reflexivity. Qed.
