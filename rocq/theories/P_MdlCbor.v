(** Properties C138 and C139: licences as they are written. *)
From Verif Require Import Base Json SerdeModel Sha256 MdlModel MdlSpec CborModel CborFacts CborSpec CborWire MdlCbor MdlRead MdlReadFacts MdlReadMain.

(** C138.  In the text of an issued licence a reader finds a licence and a security object, whatever was drawn,
    and no others.  The signed table has, by name space, exactly one digest for each item that is found, under
    the id that is read from it, and the digest is of the bytes that are found.  The items of a name space say
    the data set's elements, in its order, and no element is missing.  Key, dates, key id and signature are
    those of the run. *)
Theorem C138_read_back p checked draws salts t1 t2 t3 dataset sg out :
  sound p → proper draws salts dataset sg → (N.of_nat (String.length out) < 2 ^ 64)%N →
  to_credential checked (cbor_encoder p) draws salts t1 t2 t3 dataset sg = Some (Ok out) →
  ∃ key l s, sg_public_key sg = Some key ∧ found p out l s ∧ (∀ l' s', found p out l' s' → l' = l ∧ s' = s) ∧
    authentic p l s ∧
    (∀ ns bs, (ns, bs) ∈ li_items l → bs ≠ [] ∧ says_elements p bs (elements_of dataset ns)) ∧
    (∀ ns, elements_of dataset ns ≠ [] → ns ∈ keys (li_items l)) ∧
    rm_key s = lib_key p key ∧ rm_doc_type s = "org.iso.18013.5.1.mDL" ∧
    rm_signed s = lib_date p (timestamp t2) ∧ rm_valid_from s = lib_date p (timestamp t3) ∧
    rm_valid_until s = lib_date p (timestamp (t1 + seconds (365 * 86400))) ∧
    ra_key_id (li_auth l) = bytes_of_string (sg_verification_method sg) ∧
    ra_signature (li_auth l) = sg_sign sg (ra_payload (li_auth l)).
Proof.
  intros Hp (H1 & H2 & H3 & H4 & H5) Hs H.
  destruct (read_back p Hp checked draws salts t1 t2 t3 dataset sg out H1 H2 H3 H4 H5 H Hs) as (key & l & s & Hk & Hf & Hc & _).
  exists key, l, s. split; [exact Hk|]. split; [exact Hf|]. split; [|exact Hc].
  intros l' s' Hf'. exact (found_unique p out l' s' l s Hf' Hf).
Qed.
Print Assumptions C138_read_back.
(** Values are read as they were given, if their numbers are integers of 64 bits. *)
Theorem C138_values_unchanged p j : whole j → cbor_json (json_cbor p j) = Some j.
Proof. exact (whole_read p j). Qed.
Print Assumptions C138_values_unchanged.
(** No other item passes: whatever bytes are put in the place of an item, if the reader accepts them in a name
    space then they are an item of that name space as issued, or two messages with one SHA-256 digest are known. *)
Theorem C138_no_other_item p checked draws salts t1 t2 t3 dataset sg out l s ns b :
  sound p → proper draws salts dataset sg → (N.of_nat (String.length out) < 2 ^ 64)%N →
  to_credential checked (cbor_encoder p) draws salts t1 t2 t3 dataset sg = Some (Ok out) →
  found p out l s → (N.of_nat (length b) < 2 ^ 64)%N → accepted p s ns b →
  (∃ bs, (ns, bs) ∈ li_items l ∧ b ∈ bs) ∨ ∃ m m', m ≠ m' ∧ sha256 m = sha256 m'.
Proof.
  intros Hp (H1 & H2 & H3 & H4 & H5) Hs H Hf Hb Ha.
  destruct (read_back p Hp checked draws salts t1 t2 t3 dataset sg out H1 H2 H3 H4 H5 H Hs)
    as (key & l' & s' & _ & Hf' & [Hau _] & (m & o & _ & _ & _ & _ & _ & _ & Hit & _)).
  destruct (found_unique _ _ _ _ _ _ Hf Hf') as [<- <-]. eapply accepted_only; [exact Hau| |exact Hb|exact Ha].
  intros ns' bs b' Hx Hy. destruct (Hit _ _ _ Hx Hy) as (_ & _ & _ & Hl). exact Hl.
Qed.
Print Assumptions C138_no_other_item.

(** The CBOR of the model: what is written is read, whatever follows it. *)
Theorem C138_cbor_round_trip c rest : in_range c → (N.of_nat (length (encode c)) < 2 ^ 64)%N → decode (encode c ++ rest) = Some c.
Proof. exact (decode_encode c rest). Qed.
Print Assumptions C138_cbor_round_trip.
(** It is the CBOR of RFC 8949: what is written represents the value, in the fewest bytes, *)
Theorem C138_cbor_written c : in_range c → (N.of_nat (length (encode c)) < 2 ^ 64)%N →
  represents c (encode c) ∧ ∀ b, represents c b → length (encode c) ≤ length b.
Proof. intros Hr Hl. split; [exact (encode_represents c Hr Hl)|exact (proj1 encode_least c)]. Qed.
Print Assumptions C138_cbor_written.
(** and what is read is the value that the first of the bytes represent, however they do. *)
Theorem C138_cbor_read bs c : Forall (λ b, b < 256)%N bs → decode bs = Some c ↔ ∃ b rest, bs = b ++ rest ∧ represents c b.
Proof. exact (decode_iff bs c). Qed.
Print Assumptions C138_cbor_read.
(** From RFC 8949, appendix A; and a head that is longer than it need be. *)
Example C138_cbor_example :
  encode (CInt 1000000000000) = [0x1b; 0; 0; 0; 0xe8; 0xd4; 0xa5; 0x10; 0]%N ∧ encode (CInt (-1000)) = [0x39; 0x03; 0xe7]%N ∧
  encode (CInt 24) = [0x18; 0x18]%N ∧ encode (CInt (-1)) = [0x20]%N ∧
  encode (CTag 32 (CText "http://www.example.com")) = (0xd8 :: 0x20 :: 0x76 :: bytes_of_string "http://www.example.com")%N ∧
  encode (CBytes [1; 2; 3; 4]%N) = [0x44; 1; 2; 3; 4]%N ∧
  encode (CArr [CInt 1; CArr [CInt 2; CInt 3]; CArr [CInt 4; CInt 5]]) = [0x83; 0x01; 0x82; 0x02; 0x03; 0x82; 0x04; 0x05]%N ∧
  encode (CMap [(CText "a", CInt 1); (CText "b", CArr [CInt 2; CInt 3])]) = [0xa2; 0x61; 0x61; 0x01; 0x61; 0x62; 0x82; 0x02; 0x03]%N ∧
  decode [0x18; 5]%N = Some (CInt 5) ∧ represents (CInt 5) [0x18; 5]%N ∧ decode [0x58; 2; 7]%N = None.
Proof.
  do 9 (split; [by vm_compute|]). split; [|done]. change (CInt 5) with (CInt (Z.of_N 5)). apply rep_unsigned.
  apply (head_follows 0 5 24 1 [5]%N); [by left|done|by repeat constructor|done].
Qed.

(** A data set with a nested value and a name space that is empty, with the tag and without. *)
Definition c138_libraries (tagged : bool) : libraries :=
  Libraries tagged (λ k, CMap [(CInt 1, CInt 1); (CInt (-1), CInt 6); (CInt (-2), CBytes k)]) (λ _, "1970-01-01T00:00:00Z") (λ _, [0; 0]%N).
Definition c138_dataset : list (string * json) :=
  [("org.iso.18013.5.1", JObj [("family_name", JStr "Person"); ("age", JNum "42")]); ("empty", JObj []);
   ("aamva", JObj [("flags", JObj [("donor", JBool true); ("codes", JArr [JNum "-1"; JNull])])])].
Definition c138_signer : signer := Signer (Some [1; 2; 3]%N) sha256 EdDSA "did:web:issuer#key".
Definition c138_run (tagged : bool) : option (outcome string string) :=
  to_credential true (cbor_encoder (c138_libraries tagged)) [5; -5; 6; 5]%Z [[9]; [8]; [200; 0]]%N (seconds 100) (seconds 101) (seconds 102) c138_dataset c138_signer.
Lemma c138_sound tagged : sound (c138_libraries tagged).
Proof.
  split; [|intros t; split; [by repeat constructor|by left]]. intros k Hk. apply in_range_map.
  constructor; [split; cbn; unfold word; lia|]. constructor; [split; cbn; unfold word; lia|]. constructor; [|constructor].
  split; [cbn; unfold word; lia|exact Hk].
Qed.
Lemma c138_proper : proper [5; -5; 6; 5]%Z [[9]; [8]; [200; 0]]%N c138_dataset c138_signer.
Proof.
  split; [by apply (bool_decide_unpack _); vm_compute|]. split; [|split; [|split]].
  - intros x Hx. unfold i32. repeat (apply elem_of_cons in Hx as [->|Hx]; [lia|]). by apply elem_of_nil in Hx.
  - by repeat constructor.
  - intros k [= <-]. by repeat constructor.
  - intros m. apply sha256_bytes.
Qed.
Example C138_example tagged :
  sound (c138_libraries tagged) ∧ proper [5; -5; 6; 5]%Z [[9]; [8]; [200; 0]]%N c138_dataset c138_signer ∧
  (∃ out, c138_run tagged = Some (Ok out) ∧ (N.of_nat (String.length out) < 2 ^ 64)%N) ∧
  whole (JObj [("donor", JBool true); ("codes", JArr [JNum "-1"; JNull])]) ∧
  from_slice de_item (encode (item_cbor (c138_libraries tagged) (Item 6 [8]%N "age" (JNum "42")))) = Some (ReadItem 6 [8]%N "age" (CInt 42)) ∧
  encode (json_cbor (c138_libraries tagged) (JArr [JNum "-1"; JStr "a"; JNum "1000"])) = [131; 32; 97; 97; 25; 3; 232]%N.
Proof.
  split; [apply c138_sound|]. split; [apply c138_proper|]. split.
  { destruct tagged; eexists; (split; [vm_compute; reflexivity|by vm_compute]). }
  split; [|split; by destruct tagged]. split; [done|]. split; [|done]. split; [|done]. by exists (-1)%Z.
Qed.

(** C139.  "A reader for ISO/IEC 18013-5 can read an issued licence" fails for every licence: no item is one that
    it can read, for the names of the members; the dates in the security object are not dates for it; if there is
    an element at all, the digests are not byte strings; and there is no certificate. *)
Theorem C139_iso_reader_refuted p checked draws salts t1 t2 t3 dataset sg out l s :
  sound p → proper draws salts dataset sg → (N.of_nat (String.length out) < 2 ^ 64)%N →
  to_credential checked (cbor_encoder p) draws salts t1 t2 t3 dataset sg = Some (Ok out) → found p out l s →
  (∀ ns bs b, (ns, bs) ∈ li_items l → b ∈ bs → from_slice iso_item b = None) ∧
  (∃ content, payload_content p (ra_payload (li_auth l)) = Some content ∧ from_slice iso_dates content = None ∧
    (li_items l ≠ [] → from_slice iso_digests content = None)) ∧
  ∃ bs, bytes bs ∧ out = base64url bs ∧ from_slice iso_chain bs = None.
Proof.
  intros Hp (H1 & H2 & H3 & H4 & H5) Hs H Hf.
  exact (iso_refuses p Hp checked draws salts t1 t2 t3 dataset sg out H1 H2 H3 H4 H5 H Hs l s Hf).
Qed.
Print Assumptions C139_iso_reader_refuted.
(** The reader reads the standard's own form of the same things. *)
Example C139_example :
  (∃ out, c138_run false = Some (Ok out)) ∧
  from_slice iso_item (encode (CMap [(CText "digestID", CInt 6); (CText "random", CBytes [8]%N); (CText "elementIdentifier", CText "age"); (CText "elementValue", CInt 42)]))
    = Some (ReadItem 6 [8]%N "age" (CInt 42)) ∧
  from_slice iso_dates (encode (CMap [(CText "validityInfo", CMap [(CText "signed", CTag 0 (CText "a")); (CText "validFrom", CTag 0 (CText "b")); (CText "validUntil", CTag 0 (CText "c"))])]))
    = Some ("a", "b", "c") ∧
  from_slice iso_digests (encode (CMap [(CText "valueDigests", CMap [(CText "ns", CMap [(CInt 6, CBytes [1; 2]%N)])])])) = Some [("ns", [(6%Z, [1; 2]%N)])] ∧
  from_slice iso_chain (encode (CMap [(CText "issuerAuth", CArr [CBytes []; CMap [(CInt 33, CBytes [7]%N)]; CNull; CBytes []])])) = Some (CBytes [7]%N).
Proof. split; [eexists; vm_compute; reflexivity|]. by vm_compute. Qed.
