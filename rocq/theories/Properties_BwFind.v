(** Looking for a child of an element of a pool. *)
From Verif Require Import Base Types Sort Xb XbWrite XbBin BinSpec Bw BwSpec BwHist BwSym BwNamesSpec BwLifeSpec BwExamples BwAttrExamples BwSourceExamples BwKeysSpec BwFind BwFindSpec BwFindProofs BwFindTop BwFindExamples.

(** C73: in a pool with any history, the first child with a name and with an attribute with a given value is found, and null is returned exactly if there is none.
    Missing: SHA-1 values are not found or the client's value is read past its end (C73_sha1_refuted, C73_sha1_read_refuted); of HEX values only the length is compared (C73_hex_refuted); BLOBs are never found (C73_blob_refuted);
    of BLOB_STRINGs the length is compared with the text (C73_text_refuted); NaN is found everywhere (C73_nan_refuted); children with attributes of this name and of other types. *)
Theorem C73_partial : forall k s m T P F, life k s m T P F -> bytes m -> forall tag id ty v data size, bytes data -> In ty found_types -> handed ty v data size ->
  forall x L fuel, In x (members F) -> owned F x true L -> valued s m F L tag id ty -> (List.length (members F) <= fuel)%nat ->
  exists r, findChildByParam fuel m x tag id ty data size = rret r /\ first_with (having s m F tag id ty v) L r.
Proof. exact search_ok. Qed.
Print Assumptions C73_partial.
Example C73_met : life kr2 sr2 r6 tags1 params4 Fr2 /\ bytes r6 /\ bytes nine /\ In XBT_INT32 found_types /\ handed XBT_INT32 nine nine 4 /\ In root (members Fr2) /\ owned Fr2 root true [kid] /\ valued sr2 r6 Fr2 [kid] 0 0 XBT_INT32 /\ (List.length (members Fr2) <= 9)%nat /\
  having sr2 r6 Fr2 0 0 XBT_INT32 nine kid /\ findChildByParam 9 r6 root 0 0 XBT_INT32 nine 4 = rret (Some kid) /\ findChildByParam 9 r6 root 0 0 XBT_INT32 [8; 0; 0; 0] 4 = rret None.
Proof.
  split; [exact r6_life|]. split; [exact r6_bytes|]. split; [repeat constructor; vm_compute; discriminate|]. split; [left; reflexivity|]. split; [exact nine_handed|]. split; [right; right; left; reflexivity|]. split; [exact r6_kids|]. split; [exact r6_valued|]. split; [cbn; lia|exact r6_found].
Qed.
(** By its name alone, the first child or attribute is found. *)
Theorem C73_named : forall k s m T P F x id fuel, life k s m T P F -> In x (members F) ->
  (forall L, owned F x true L -> (List.length L <= fuel)%nat -> exists r, findChildByTag fuel m x id = rret r /\ first_with (fun e => el_id m e = Ok id) L r) /\
  (forall A, owned F x false A -> (List.length A <= fuel)%nat -> exists r, findAttr fuel m x id = rret r /\ first_with (fun e => el_id m e = Ok id) A r).
Proof. exact named_ok. Qed.
Print Assumptions C73_named.
Example C73_named_met : life kr2 sr2 r6 tags1 params4 Fr2 /\ In root (members Fr2) /\ owned Fr2 root true [kid] /\ findChildByTag 9 r6 root 0 = rret (Some kid) /\ findChildByTag 9 r6 root 1 = rret None /\ findAttr 9 r6 kid 0 = rret (Some at1).
Proof. split; [exact r6_life|]. split; [right; right; left; reflexivity|]. split; [exact r6_kids|]. vm_compute. repeat split; reflexivity. Qed.
(** A child with an attribute with a SHA-1 value, looked for with any value of 20 bytes *)
Theorem C73_sha1_refuted : forall data, kid_has m_sha XBT_SHA1 hash /\ findChildByParam 9 m_sha root 0 0 XBT_SHA1 data 20 = rret None.
Proof. exact sha_missed. Qed.
Print Assumptions C73_sha1_refuted.
(** With the size the element itself uses for SHA-1 values, 24, the bytes behind the client's 20 are read. *)
Theorem C73_sha1_read_refuted : zlen hash = 20 /\ findChildByParam 9 m_sha root 0 0 XBT_SHA1 hash 24 = Some Ub.
Proof. split; [reflexivity|exact sha_over]. Qed.
Print Assumptions C73_sha1_read_refuted.
(** The value "abcd" in hexadecimal digits is not found with its size, and "0000" is found in its place. *)
Theorem C73_hex_refuted : kid_has m_hex XBT_HEX (le 4 2 ++ [171; 205]) /\ findChildByParam 9 m_hex root 0 0 XBT_HEX (le 4 2 ++ [171; 205]) 6 = rret None /\ findChildByParam 9 m_hex root 0 0 XBT_HEX (le 4 2 ++ [0; 0]) 4 = rret (Some kid).
Proof. exact hex_wrong. Qed.
Print Assumptions C73_hex_refuted.
Theorem C73_blob_refuted : forall data size, kid_has m_blob XBT_BLOB (le 4 2 ++ [171; 205]) /\ findChildByParam 9 m_blob root 0 0 XBT_BLOB data size = rret None.
Proof. exact blob_missed. Qed.
Print Assumptions C73_blob_refuted.
(** The text "abc" is not found, the character 3 is. *)
Theorem C73_text_refuted : kid_has m_text XBT_BLOB_STRING (le 4 3 ++ lit "abc" ++ [0]) /\ findChildByParam 9 m_text root 0 0 XBT_BLOB_STRING (lit "abc" ++ [0]) 4 = rret None /\ findChildByParam 9 m_text root 0 0 XBT_BLOB_STRING [3; 0] 2 = rret (Some kid).
Proof. exact text_wrong. Qed.
Print Assumptions C73_text_refuted.
(** The value 1.0, looked for with NaN *)
Theorem C73_nan_refuted : kid_has m_float XBT_FLOAT (le 4 1065353216) /\ findChildByParam 9 m_float root 0 0 XBT_FLOAT (le 4 2143289344) 4 = rret (Some kid).
Proof. exact float_wrong. Qed.
Print Assumptions C73_nan_refuted.
