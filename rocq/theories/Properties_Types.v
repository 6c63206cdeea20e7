(** Properties C02, C05 - C07, C11 - C18, C57: values of src/bin_xml_types.cpp.
    [fl] stands for the two libc conversions of floating point numbers (Types.floats). *)
From Verif Require Import Base NumSpec Base64Spec CalSpec ScalarSpec Scan Base64 Dates Types.
From Verif Require Import BaseFacts ScanProofs DatesProofs ListFacts ChunkProofs ScalarProofs RingProofs DetectProofs ShownProofs.
From Verif Require Import RoundtripProofs JoinProofs SizeProofs EscapeProofs CompareProofs.
From Coq Require Import Permutation.

(** ** C02: a BLOB printed in pieces *)

Theorem C02_blob_pieces_partial : forall fl blob rest dst,
  bytes blob -> zlen blob <= INT_MAX -> 256 < zlen dst -> zlen dst mod 4 <> 2 ->
  exists fuel l, chunk_loop fl fuel XBT_BLOB (le 4 (zlen blob) ++ blob ++ rest) 0 dst = Some (Ok l) /\
    List.concat l = b64_text blob /\ Forall (fun piece => 0 < zlen piece < zlen dst) l.
Proof. exact blob_pieces. Qed.
Print Assumptions C02_blob_pieces_partial.

Example C02_met : bytes (lit "binary") /\ 256 < zlen (zrepeat 7 4097) /\ zlen (zrepeat 7 4097) mod 4 <> 2.
Proof. split; [apply Forall_forall; intros x Hx; vm_compute in Hx; unfold is_byte; intuition lia|]. split; [reflexivity|discriminate]. Qed.

(** What is missing: with a buffer of 4k+2 bytes full pieces are not terminated. *)
Theorem C02_buffer_size_refuted : forall fl, exists blob dst,
  bytes blob /\ 256 < zlen dst /\ bytes dst /\
  exists fuel l, chunk_loop fl fuel XBT_BLOB (le 4 (zlen blob) ++ blob) 0 dst = Some (Ok l) /\ List.concat l <> b64_text blob.
Proof. exact blob_pieces_stale. Qed.
Print Assumptions C02_buffer_size_refuted.

(** ** C57: a STRING printed in pieces *)

Theorem C57_string_pieces : forall fl s rest dst, cstring s -> 256 < zlen dst ->
  exists fuel l, chunk_loop fl fuel XBT_STRING (s ++ 0 :: rest) 0 dst = Some (Ok l) /\
    List.concat l = s /\ Forall (fun piece => 0 < zlen piece < zlen dst) l.
Proof. exact string_pieces. Qed.
Print Assumptions C57_string_pieces.

Theorem C57_blob_string_pieces : forall fl s n rest dst, cstring s -> 256 < zlen dst ->
  exists fuel l, chunk_loop fl fuel XBT_BLOB_STRING (le 4 n ++ s ++ 0 :: rest) 0 dst = Some (Ok l) /\
    List.concat l = s /\ Forall (fun piece => 0 < zlen piece < zlen dst) l.
Proof. exact blob_string_pieces. Qed.
Print Assumptions C57_blob_string_pieces.

Example C57_met : cstring (zrepeat 65 1000) /\ 256 < zlen (zrepeat 7 257).
Proof. split; [apply zrepeat_Forall; unfold is_cchar; lia|reflexivity]. Qed.

(** ** C05 - C07: the printing side of the integers and addresses *)

Theorem C05_int64_print_partial : forall fl v rest dst,
  int64 v -> v <> INT64_MIN -> v <> -576460752303423488 -> 256 < zlen dst ->
  delivers (XBT_ToStringChunk fl XBT_INT64 (le 8 v ++ rest) 0 dst) (sdec v) (zlen dst).
Proof. exact int64_delivers. Qed.
Print Assumptions C05_int64_print_partial.

(** One value prints as another number (a mistyped constant). *)
Theorem C05_special_value_refuted : forall fl rest dst, 256 < zlen dst ->
  delivers_cstr (XBT_ToStringChunk fl XBT_INT64 (le 8 (-576460752303423488) ++ rest) 0 dst) (lit "9223372036854775808") (zlen dst).
Proof. exact int64_special. Qed.
Print Assumptions C05_special_value_refuted.

Theorem C06_uint64_print : forall fl v rest dst, uint64 v -> 256 < zlen dst ->
  delivers (XBT_ToStringChunk fl XBT_UINT64 (le 8 v ++ rest) 0 dst) (udec v) (zlen dst).
Proof. exact uint64_delivers. Qed.
Print Assumptions C06_uint64_print.

Theorem C07_ipv4_print : forall fl v rest dst, uint32 v -> 256 < zlen dst ->
  delivers_cstr (XBT_ToStringChunk fl XBT_IPv4 (le 4 v ++ rest) 0 dst)
    (quad (v / 16777216) (v / 65536 mod 256) (v / 256 mod 256) (v mod 256)) (zlen dst).
Proof. exact ipv4_delivers. Qed.
Print Assumptions C07_ipv4_print.

Example C06_print_met : uint64 18446744073709551615 /\ int64 (-9223372036854775807) /\ 256 < zlen (zrepeat 7 257).
Proof. split; [|split]; unfold uint64, int64; try lia. reflexivity. Qed.

(** ** C11: fixed-point decimals *)

Theorem C11_fixed_print : forall fl ty k V rest dst, In (ty, k) fixed_types -> int32 V -> V <> INT_MIN -> 256 < zlen dst ->
  delivers_cstr (XBT_ToStringChunk fl ty (le 4 V ++ rest) 0 dst) (fixed_text k V) (zlen dst).
Proof. exact fixed_delivers. Qed.
Print Assumptions C11_fixed_print.

Theorem C11_fixed_denotes_partial : forall k V, 1 <= k -> 0 <= V \/ V <= - 10 ^ k -> fraction_text k V (fixed_text k V).
Proof. exact fixed_denotes. Qed.
Print Assumptions C11_fixed_denotes_partial.

Theorem C11_fixed_roundtrip_partial : forall k V, (1 <= k)%nat ->
  0 <= V \/ V <= - 10 ^ (Z.of_nat k) -> Z.abs V + 48 <= INT_MAX ->
  str2dec (fixed_text (Z.of_nat k) V) k = Ok V.
Proof. exact fixed_roundtrip. Qed.
Print Assumptions C11_fixed_roundtrip_partial.

Example C11_met : In (XBT_INT32_MICRO, 6) fixed_types /\ fixed_text 6 (-2000001) = lit "-2.000001" /\
  str2dec (lit "-2.000001") 6 = Ok (-2000001).
Proof. split; [cbn; tauto|]. split; vm_compute; reflexivity. Qed.

(** What is missing: values between -10^k and 0 lose their sign, the smallest value is undefined
    behaviour (abs), and the largest ones overflow while they are read back. *)
Theorem C11_small_negative_refuted :
  fixed_text 1 (-5) = lit "0.5" /\ ~ fraction_text 1 (-5) (fixed_text 1 (-5)) /\ str2dec (fixed_text 1 (-5)) 1 = Ok 5.
Proof. exact fixed_small_negative. Qed.
Print Assumptions C11_small_negative_refuted.

Theorem C11_minimum_refuted : forall fl ty k rest dst, In (ty, k) fixed_types -> 256 < zlen dst ->
  XBT_ToStringChunk fl ty (le 4 INT_MIN ++ rest) 0 dst = Ub.
Proof. exact fixed_ub. Qed.
Print Assumptions C11_minimum_refuted.

Theorem C11_maximum_refuted : str2dec (fixed_text 1 INT_MAX) 1 = Ub.
Proof. exact fixed_max_ub. Qed.
Print Assumptions C11_maximum_refuted.

(** ** C17: texts and histories *)

Theorem C17_history_partial : forall fl ty data o1 o2 h1 h2 st1 st2 s1 s2 st1' st2',
  floats_ok fl -> Forall (fun c => bytes (cl_data c)) h1 -> Forall (fun c => bytes (cl_data c)) h2 ->
  bytes data -> history_free ty data ->
  run_calls fl h1 ring0 = Ok st1 -> run_calls fl h2 ring0 = Ok st2 ->
  XBT_ToString fl ty data o1 st1 = Ok (s1, st1') -> XBT_ToString fl ty data o2 st2 = Ok (s2, st2') ->
  shown_text s1 st1' = shown_text s2 st2'.
Proof. exact history_indep. Qed.
Print Assumptions C17_history_partial.

Theorem C17_survives_63_calls : forall fl ty data o h h' st s st' st2,
  floats_ok fl -> Forall (fun c => bytes (cl_data c)) h -> Forall (fun c => bytes (cl_data c)) h' -> bytes data ->
  run_calls fl h ring0 = Ok st -> XBT_ToString fl ty data o st = Ok (s, st') ->
  run_calls fl h' st' = Ok st2 -> (List.length h' <= 63)%nat ->
  shown_text s st2 = shown_text s st'.
Proof. exact shown_survives. Qed.
Print Assumptions C17_survives_63_calls.

Example C17_met : floats_ok fl0 /\ history_free XBT_INT32 (le 4 (-7)) /\
  exists st s st', run_calls fl0 (repeat (mkcall XBT_INT32 (le 4 10000) []) 70) ring0 = Ok st /\
    XBT_ToString fl0 XBT_INT32 (le 4 (-7)) [] st = Ok (s, st') /\ shown_text s st' = Some (lit "-7").
Proof.
  split; [intros w; split; [repeat constructor; unfold is_cchar; lia|vm_compute; discriminate]|].
  split; [split; [discriminate|split; [discriminate|split; discriminate]]|].
  eexists _, _, _. split; [vm_compute; reflexivity|]. split; vm_compute; reflexivity.
Qed.

(** What is missing: three kinds of values do show remains of earlier texts. *)
Theorem C17_int64_refuted : exists h st s st' s0 st0,
  run_calls fl0 h ring0 = Ok st /\ XBT_ToString fl0 XBT_INT64 (le 8 5) [] st = Ok (s, st') /\
  XBT_ToString fl0 XBT_INT64 (le 8 5) [] ring0 = Ok (s0, st0) /\
  shown_text s0 st0 = Some (lit "5") /\ shown_text s st' = Some (lit "50000").
Proof. exact int64_stale. Qed.
Print Assumptions C17_int64_refuted.

Theorem C17_uint64_refuted : exists h st s st' s0 st0,
  run_calls fl0 h ring0 = Ok st /\ XBT_ToString fl0 XBT_UINT64 (le 8 5) [] st = Ok (s, st') /\
  XBT_ToString fl0 XBT_UINT64 (le 8 5) [] ring0 = Ok (s0, st0) /\
  shown_text s0 st0 = Some (lit "5") /\ shown_text s st' = Some (lit "50000").
Proof. exact uint64_stale. Qed.
Print Assumptions C17_uint64_refuted.

Theorem C17_leap_december_refuted : exists h st s st',
  run_calls fl0 h ring0 = Ok st /\ XBT_ToString fl0 XBT_UNIX_DATE (le 4 18627) [] st = Ok (s, st') /\
  day_number (mkdate 2020 12 31) 18627 /\ shown_text s st' = Some (lit "10000").
Proof. exact leap_stale. Qed.
Print Assumptions C17_leap_december_refuted.

Theorem C17_blob_refuted : forall fl, exists data out, zlen out = 9 /\
  XBT_ToString fl XBT_BLOB data out ring0 = Ok (Text (lit "QUJDRA==!"), ring0) /\ data = le 4 4 ++ lit "ABCD".
Proof. exact blob_stale. Qed.
Print Assumptions C17_blob_refuted.

(** ** C12: a text keeps its meaning under its detected type *)

Theorem C12_exact_partial : forall fl t, exact_text t -> keeps fl t t.
Proof. exact exact_keeps. Qed.
Print Assumptions C12_exact_partial.

Theorem C12_empty : forall fl wp limit data out, XBT_Detect [] = XBT_NULL /\
  XBT_FromString fl [] XBT_NULL wp limit = Ok (mkstored wp [] wp) /\ XBT_ToString fl XBT_NULL data out ring0 = Ok (NoText, ring0).
Proof. exact empty_keeps. Qed.
Print Assumptions C12_empty.

Theorem C12_milliseconds_partial : forall fl d t, 0 <= t / 1000 <= UINT32_MAX -> valid_date d -> day_number d (t / 86400000) ->
  keeps fl (msec_text d t) (msec_shown d t).
Proof. exact msec_keeps. Qed.
Print Assumptions C12_milliseconds_partial.

Theorem C12_hex_partial : forall fl l, bytes l -> zlen l <> 20 -> 0 < zlen l <= INT_MAX -> (exists c, In c (Hex2Str l) /\ 97 <= c) ->
  forall wp limit rest out, 0 <= wp -> align_up 4 wp + 4 + zlen l <= limit ->
  exists bs shown, stores fl (Hex2Str l) (XBT_Detect (Hex2Str l)) wp limit bs /\
    shows fl (XBT_Detect (Hex2Str l)) (bs ++ rest) out shown /\ filter (fun c => negb (c =? 10)) shown = Hex2Str l.
Proof. exact hex_keeps. Qed.
Print Assumptions C12_hex_partial.

Theorem C12_ipv4_partial : forall fl v wp limit rest dst, uint32 v -> 0 <= wp -> 256 < zlen dst ->
  let t := quad (v / 16777216) (v / 65536 mod 256) (v / 256 mod 256) (v mod 256) in
  XBT_Detect t = XBT_IPv4 /\ stores fl t XBT_IPv4 wp limit (le 4 v) /\
  delivers_cstr (XBT_ToStringChunk fl XBT_IPv4 (le 4 v ++ rest) 0 dst) t (zlen dst).
Proof. exact ipv4_keeps. Qed.
Print Assumptions C12_ipv4_partial.

Example C12_met : exact_text (lit "-12.50") /\ exact_text (lit "Hello world") /\ Hex2Str [171; 18] = lit "ab12" /\
  XBT_Detect (lit "-12.50") = XBT_INT32_CENTI /\ XBT_Detect (lit "ab12") = XBT_HEX.
Proof.
  split. { refine (ex_fraction true 12 50 2 _ _ _ _ _); [cbn; tauto|lia|change (10 ^ 2) with 100; lia|lia|vm_compute; discriminate]. }
  split. { apply ex_string; [apply Forall_forall; intros x Hx; vm_compute in Hx; unfold is_cchar; intuition lia|reflexivity]. }
  repeat split.
Qed.

(** What is missing: texts that are classified but cannot be stored, texts that come back as a
    different one, and addresses that XBT_ToString does not show. *)
Theorem C12_lost_refuted : forall fl, lost fl (lit "3000000000") /\ lost fl (lit "12345678901234567890") /\ lost fl (lit "12345678901.5") /\
  lost fl (lit "999.1.1.1").
Proof. exact lost_texts. Qed.
Print Assumptions C12_lost_refuted.

Theorem C12_altered_refuted : forall fl, altered fl (lit "007") (lit "7") /\ altered fl (lit "5-3") (lit "5") /\ altered fl (lit "0x10") (lit "0") /\
  altered fl (lit "-0.5") (lit "0.5") /\ altered fl (lit "ab1") (lit "ab" ++ [10]).
Proof. exact altered_texts. Qed.
Print Assumptions C12_altered_refuted.

Theorem C12_ipv4_refuted : forall fl out, XBT_Detect (lit "10.0.0.1") = XBT_IPv4 /\
  XBT_ToString fl XBT_IPv4 (le 4 167772161) out ring0 = Ok (NoText, ring0).
Proof. exact ipv4_not_shown. Qed.
Print Assumptions C12_ipv4_refuted.

Theorem C12_overflow_refuted : forall fl, XBT_FromString fl (lit "3000.1234") (XBT_Detect (lit "3000.1234")) 0 1000 = Ub.
Proof. exact fraction_overflow. Qed.
Print Assumptions C12_overflow_refuted.

(** ** C13: joining types *)

Theorem C13_join_idempotent : forall a, In a data_types -> XBT_JoinTypes a a = a.
Proof. exact join_idem. Qed.
Print Assumptions C13_join_idempotent.

Theorem C13_join_commutative : forall a b, In a data_types -> In b data_types -> XBT_JoinTypes a b = XBT_JoinTypes b a.
Proof. exact join_comm. Qed.
Print Assumptions C13_join_commutative.

Theorem C13_join_associative : forall a b c, In a data_types -> In b data_types -> In c data_types ->
  XBT_JoinTypes a (XBT_JoinTypes b c) = XBT_JoinTypes (XBT_JoinTypes a b) c.
Proof. exact join_assoc. Qed.
Print Assumptions C13_join_associative.

Theorem C13_column_order_partial : forall v w, Permutation v w -> orderly v -> column_type v = column_type w.
Proof. exact column_order. Qed.
Print Assumptions C13_column_order_partial.

Theorem C13_only_strings_matter_partial : forall v w, Permutation v w -> column_type v <> column_type w ->
  exists s, In s v /\ XBT_Detect s = XBT_STRING.
Proof. exact column_disorderly. Qed.
Print Assumptions C13_only_strings_matter_partial.

Example C13_met : orderly [lit "1"; lit "2.5"; lit "text"] /\ orderly [lit "1"; lit "2024-01-01"] /\
  column_type [lit "1"; lit "2.5"] = XBT_INT32_DECI.
Proof.
  split; [right; vm_compute; discriminate|]. split; [left; intros v Hv; cbn [In] in Hv; destruct Hv as [<-|[<-|[]]]; vm_compute; discriminate|].
  vm_compute. reflexivity.
Qed.

Theorem C13_column_order_refuted : exists v w, Permutation v w /\ column_type v <> column_type w.
Proof. exact column_order_refuted. Qed.
Print Assumptions C13_column_order_refuted.

(** ** C14: the reserve of a resizable string *)

Theorem C14_smallest_reserve : forall n, 0 <= n < 2 ^ 30 ->
  exists s, XBT_GetBLOB_STRING_Size n = Ok s /\ reserve s /\ n + 1 <= s /\ s <= 2 ^ 30 /\ (forall s', reserve s' -> n + 1 <= s' -> s <= s').
Proof. exact blob_string_reserve. Qed.
Print Assumptions C14_smallest_reserve.

Theorem C14_monotone : forall n m s t, 0 <= n <= m -> m < 2 ^ 30 ->
  XBT_GetBLOB_STRING_Size n = Ok s -> XBT_GetBLOB_STRING_Size m = Ok t -> s <= t.
Proof. exact blob_string_monotone. Qed.
Print Assumptions C14_monotone.

Theorem C14_not_wasteful : forall n s, 16 <= n < 2 ^ 30 -> XBT_GetBLOB_STRING_Size n = Ok s -> 2 * s <= 3 * n.
Proof. exact blob_string_thrifty. Qed.
Print Assumptions C14_not_wasteful.

Example C14_met : XBT_GetBLOB_STRING_Size 1000 = Ok 1024 /\ XBT_GetBLOB_STRING_Size 1024 = Ok 1536 /\ reserve 1536.
Proof. split; [vm_compute; reflexivity|]. split; [vm_compute; reflexivity|]. exists 6. split; [lia|right; reflexivity]. Qed.

(** Outside the quantifier: from 2^30 on the size does not fit an [int]. *)
Theorem C14_too_long_refuted : forall n, 2 ^ 30 <= n <= INT_MAX -> XBT_GetBLOB_STRING_Size n = Ub.
Proof. exact blob_string_too_long. Qed.
Print Assumptions C14_too_long_refuted.

(** ** C15: copying a value *)

Theorem C15_aligned_partial : forall src ty size wp limit r, XBT_Align ty <> 0 -> XBT_Copy src ty size wp limit = Ok r ->
  inside wp limit r /\ st_pos r mod XBT_Align ty = 0 /\ st_pos r < wp + XBT_Align ty /\
  Ok (zlen (st_bytes r)) = XBT_Size2 ty size /\ exists rest, src = st_bytes r ++ rest.
Proof. exact copy_aligned. Qed.
Print Assumptions C15_aligned_partial.

Theorem C15_string_partial : forall s rest size wp limit r, cstring s -> zlen s <= size ->
  XBT_Copy (s ++ 0 :: rest) XBT_STRING size wp limit = Ok r ->
  st_pos r = wp /\ st_bytes r = s ++ [0] /\ wp + zlen (st_bytes r) <= limit /\ (size = zlen s -> inside wp limit r).
Proof. exact copy_string. Qed.
Print Assumptions C15_string_partial.

Theorem C15_refused_only_for_room_partial : forall src ty size need wp limit,
  XBT_Align ty <> 0 -> XBT_Size2 ty size = Ok need -> 0 <= need <= zlen src ->
  (limit - wp < need + XBT_Align ty /\ XBT_Copy src ty size wp limit = Fail) \/ exists r, XBT_Copy src ty size wp limit = Ok r.
Proof. exact copy_works. Qed.
Print Assumptions C15_refused_only_for_room_partial.

Example C15_met : XBT_Copy (le 8 77) XBT_INT64 8 13 40 = Ok (mkstored 16 (le 8 77) 24) /\ XBT_Copy (le 8 77) XBT_INT64 8 13 28 = Fail /\
  XBT_Copy (lit "text" ++ [0]) XBT_STRING 4 13 18 = Ok (mkstored 13 (lit "text" ++ [0]) 18).
Proof. repeat split. Qed.

(** What is missing: strings copied with a content size below their length (the creator passes 0)
    overrun the limit, VARIANT moves the write position back, and a wrong content size or a SHA1 of
    20 bytes makes the copy read out of bounds. *)
Theorem C15_string_size_refuted : exists src r, XBT_Copy src XBT_STRING 0 0 1 = Ok r /\ 1 < st_pos r + zlen (st_bytes r) /\
  st_wp r < st_pos r + zlen (st_bytes r).
Proof. exact copy_string_past_limit. Qed.
Print Assumptions C15_string_size_refuted.

Theorem C15_variant_refuted : forall src size wp limit, wp <= limit ->
  exists r, XBT_Copy src XBT_VARIANT size wp limit = Ok r /\ st_wp r = wp - 1.
Proof. exact copy_variant_backwards. Qed.
Print Assumptions C15_variant_refuted.

Theorem C15_wrong_size_refuted : forall src size wp limit, size <> 0 -> size <> 4 -> wp + 3 <= limit ->
  XBT_Copy src XBT_INT32 size wp limit = Ub.
Proof. exact copy_wrong_size. Qed.
Print Assumptions C15_wrong_size_refuted.

Theorem C15_sha1_refuted : forall src wp limit, zlen src = 20 -> wp + 28 <= limit -> XBT_Copy src XBT_SHA1 20 wp limit = Ub.
Proof. exact copy_sha1_overread. Qed.
Print Assumptions C15_sha1_refuted.

(** ** C16: comparing values *)

Theorem C16_antisymmetric : forall tA A tB B,
  (XBT_Compare tA A tB B = incomparable /\ XBT_Compare tB B tA A = incomparable) \/
  (-1 <= XBT_Compare tA A tB B <= 1 /\ XBT_Compare tB B tA A = - XBT_Compare tA A tB B).
Proof. exact compare_swap. Qed.
Print Assumptions C16_antisymmetric.

Theorem C16_transitive_partial : forall ty A B C, is_nan ty B = false ->
  le_answer (XBT_Compare ty A ty B) -> le_answer (XBT_Compare ty B ty C) ->
  is_nan ty A = false -> is_nan ty C = false -> le_answer (XBT_Compare ty A ty C).
Proof. exact compare_trans. Qed.
Print Assumptions C16_transitive_partial.

Theorem C16_zero_means_same_partial : forall ty A B, bytes A -> bytes B -> ty <> XBT_FLOAT -> ty <> XBT_DOUBLE ->
  XBT_Compare ty A ty B = 0 ->
  if (ty =? XBT_STRING) || (ty =? XBT_BLOB_STRING) then cstr A = cstr B else A = B.
Proof. exact compare_zero. Qed.
Print Assumptions C16_zero_means_same_partial.

Theorem C16_same_means_zero_partial : forall ty A,
  In ty compared_types \/ (In ty compared4 /\ zlen A = 4) \/ (In ty compared8 /\ zlen A = 8) -> XBT_Compare ty A ty A = 0.
Proof. exact compare_self. Qed.
Print Assumptions C16_same_means_zero_partial.

Theorem C16_equal_symmetric : forall fl tA A tB B, XBT_Equal fl tA A tB B = XBT_Equal fl tB B tA A.
Proof. exact equal_symmetric. Qed.
Print Assumptions C16_equal_symmetric.

Theorem C16_equal_same : forall fl ty A B, XBT_Equal fl ty A ty B = Ok true <-> A = B.
Proof. exact equal_same. Qed.
Print Assumptions C16_equal_same.

Theorem C16_equal_text : forall fl s rest ty B st, cstring s -> ty <> XBT_STRING ->
  XBT_FromString fl s ty 0 (zlen (s ++ 0 :: rest) + 64) = Ok st ->
  (XBT_Equal fl XBT_STRING (s ++ 0 :: rest) ty B = Ok true <-> st_bytes st = B).
Proof. exact equal_text. Qed.
Print Assumptions C16_equal_text.

Example C16_met : XBT_Compare XBT_INT32 (le 4 (-5)) XBT_INT32 (le 4 3) = -1 /\ XBT_Compare XBT_INT32 (le 4 3) XBT_INT32 (le 4 70000) = -1 /\
  is_nan XBT_FLOAT (le 4 1065353216) = false /\ XBT_Compare XBT_STRING (lit "b" ++ [0; 1]) XBT_STRING (lit "b" ++ [0; 2]) = 0.
Proof. repeat split. Qed.

Theorem C16_float_zero_refuted : exists A B, A <> B /\ XBT_Compare XBT_FLOAT A XBT_FLOAT B = 0.
Proof. exact compare_float_zero. Qed.
Print Assumptions C16_float_zero_refuted.

Theorem C16_nan_refuted : exists A B C, XBT_Compare XBT_FLOAT A XBT_FLOAT B = 0 /\ XBT_Compare XBT_FLOAT B XBT_FLOAT C = 0 /\
  XBT_Compare XBT_FLOAT A XBT_FLOAT C = 1.
Proof. exact compare_float_nan. Qed.
Print Assumptions C16_nan_refuted.

Theorem C16_blob_refuted : forall A B, XBT_Compare XBT_BLOB A XBT_BLOB B = incomparable.
Proof. exact compare_blob. Qed.
Print Assumptions C16_blob_refuted.

(** ** C18: escaping *)

Theorem C18_string : forall fl s rest buf, cstring s -> 256 < zlen buf ->
  exists t, escaped s t /\ exists fuel0, forall fuel, (fuel0 <= fuel)%nat -> XBT_ToXMLStream fl fuel XBT_STRING (s ++ 0 :: rest) buf = Some (Ok t).
Proof. exact xml_string_escaped. Qed.
Print Assumptions C18_string.

Theorem C18_blob_string : forall fl s n rest buf, cstring s -> 256 < zlen buf ->
  exists t, escaped s t /\ exists fuel0, forall fuel, (fuel0 <= fuel)%nat ->
    XBT_ToXMLStream fl fuel XBT_BLOB_STRING (le 4 n ++ s ++ 0 :: rest) buf = Some (Ok t).
Proof. exact xml_blob_string_escaped. Qed.
Print Assumptions C18_blob_string.

Example C18_met : exists s, cstring s /\ zlen s = 10000 /\ 256 < zlen (zrepeat 0 4097) /\ escaped [60; 97; 38] (lit "&lt;a&amp;").
Proof.
  exists (zrepeat 38 10000). split; [|split; [apply zlen_repeat; lia|split; [vm_compute; reflexivity|apply (escape_escaped [60; 97; 38])]]].
  apply Forall_forall. intros x Hx. apply repeat_spec in Hx. subst x. unfold is_cchar. lia.
Qed.

(** Beyond strings: a HEX value puts a NUL byte into the XML text. *)
Theorem C18_hex_refuted : forall fl, exists data t, XBT_ToXMLStream fl 9 XBT_HEX data (zrepeat 0 4097) = Some (Ok t) /\ In 0 t.
Proof. exact xml_hex_nul. Qed.
Print Assumptions C18_hex_refuted.
