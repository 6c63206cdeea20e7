(** Properties C01, C03 - C10: text codecs of src/utils.cpp. *)
From Verif Require Import Base NumSpec Base64Spec CalSpec Scan Base64 Dates.
From Verif Require Import ScanProofs Base64Proofs DatesProofs.

(** ** C01: base64 *)

Theorem C01_base64_roundtrip : forall src dst_size back_size,
  bytes src -> 4 * ((zlen src + 2) / 3) + 2 <= dst_size -> zlen src <= back_size ->
  exists text,
    base64_encode src dst_size = (text, true) /\ text = b64_text src /\
    zlen text = 4 * ((zlen src + 2) / 3) /\
    Forall (fun c => In c alphabet \/ c = 61) text /\
    base64_decode text back_size = src.
Proof. exact base64_roundtrip. Qed.
Print Assumptions C01_base64_roundtrip.

Example C01_met : bytes [77; 97; 110; 255; 0] /\ 4 * ((zlen [77; 97; 110; 255; 0] + 2) / 3) + 2 <= 16.
Proof. split; [repeat constructor; lia | vm_compute; discriminate]. Qed.

(** One byte less and the text is complete but not NUL-terminated. *)
Theorem C01_tight_buffer_refuted : exists src dst_size,
  bytes src /\ 4 * ((zlen src + 2) / 3) + 1 <= dst_size /\
  base64_encode src dst_size = (b64_text src, false).
Proof. exact base64_tight. Qed.
Print Assumptions C01_tight_buffer_refuted.

(** ** C03: hexadecimal text *)

Theorem C03_hex_roundtrip : forall src dst_size,
  bytes src -> zlen src <= dst_size -> ScanHex (Hex2Str src) dst_size = (zlen src, src, []).
Proof. exact ScanHex_Hex2Str. Qed.
Print Assumptions C03_hex_roundtrip.

Theorem C03_hex_bound : forall text dst_size, 0 <= dst_size ->
  let '(count, stored, _) := ScanHex text dst_size in
  count = zlen stored /\ zlen stored <= dst_size /\ bytes stored.
Proof. exact ScanHex_bound. Qed.
Print Assumptions C03_hex_bound.

Example C03_met : bytes [0; 171; 255] /\ zlen [0; 171; 255] <= 3 /\ Hex2Str [0; 171; 255] = lit "00abff".
Proof. split; [repeat constructor; lia | split; [vm_compute; discriminate | reflexivity]]. Qed.

(** ** C04: GUID text *)

Theorem C04_guid_roundtrip : forall guid, bytes guid -> List.length guid = 16%nat ->
  ScanHex (GUID2Str guid) 16 = (16, guid, []).
Proof. exact ScanHex_GUID2Str. Qed.
Print Assumptions C04_guid_roundtrip.

Theorem C04_guid_shape : forall guid, List.length guid = 16%nat ->
  List.length (GUID2Str guid) = 36%nat /\
  nth 8 (GUID2Str guid) 0 = 45 /\ nth 13 (GUID2Str guid) 0 = 45 /\
  nth 18 (GUID2Str guid) 0 = 45 /\ nth 23 (GUID2Str guid) 0 = 45.
Proof. exact GUID2Str_shape. Qed.
Print Assumptions C04_guid_shape.

Example C04_met :
  GUID2Str [1; 2; 3; 4; 5; 6; 7; 8; 9; 10; 11; 12; 13; 14; 15; 255] = lit "01020304-0506-0708-090a-0b0c0d0e0fff".
Proof. reflexivity. Qed.

(** ** C05: signed 64-bit numbers (Int64ToStr and ScanInt64; the INT64 branch of
    XBT_ToStringChunk is in Properties_Types.v) *)

Theorem C05_int64_roundtrip_partial : forall v, int64 v -> v <> INT64_MIN ->
  exists t, Int64ToStr v = Ok t /\ signed_numeral v t /\ ScanInt64 t = Ok (v, []).
Proof. exact int64_roundtrip. Qed.
Print Assumptions C05_int64_roundtrip_partial.

Example C05_met : int64 (-9223372036854775807) /\ Int64ToStr (-9223372036854775807) = Ok (lit "-9223372036854775807").
Proof. split; [unfold int64; lia | vm_compute; reflexivity]. Qed.

Theorem C05_int64_min_refuted : exists v, int64 v /\ Int64ToStr v = Ub /\
  forall t, signed_numeral v t -> ScanInt64 t = Ub.
Proof. exact int64_min_refuted. Qed.
Print Assumptions C05_int64_min_refuted.

(** ** C06: unsigned 64-bit numbers *)

Theorem C06_uint64_scan : forall v t rest, uint64 v -> numeral v t ->
  is_digit (cur rest) = false -> cur rest <> 120 -> ScanUInt64 (t ++ rest) = Ok (v, rest).
Proof. exact ScanUInt64_numeral. Qed.
Print Assumptions C06_uint64_scan.

Theorem C06_uint64_hex_scan : forall v ds rest, uint64 v -> ds <> [] -> hex_value 0 ds = Some v ->
  hex_digit_value (cur rest) = None ->
  ScanUInt64Hex (ds ++ rest) = Ok (v, rest) /\ ScanUInt64 (48 :: 120 :: ds ++ rest) = Ok (v, rest).
Proof. exact uint64_hex. Qed.
Print Assumptions C06_uint64_hex_scan.

Example C06_met : uint64 18446744073709551615 /\ numeral 18446744073709551615 (lit "18446744073709551615") /\
  hex_value 0 (lit "ffFFffffffffffff") = Some 18446744073709551615.
Proof.
  split; [unfold uint64; lia|]. split; [|reflexivity].
  change (lit "18446744073709551615") with (udec 18446744073709551615). apply udec_numeral. lia.
Qed.

(** ** C07: IPv4 addresses *)

Theorem C07_ipv4_roundtrip : forall v rest, uint32 v -> is_digit (cur rest) = false ->
  ScanIPv4 (quad (v / 16777216) (v / 65536 mod 256) (v / 256 mod 256) (v mod 256) ++ rest) = Ok (v, rest).
Proof. exact ScanIPv4_all. Qed.
Print Assumptions C07_ipv4_roundtrip.

Theorem C07_ipv4_only : forall p v r, ScanIPv4 p = Ok (v, r) ->
  exists a b c d sa sb sc sd,
    0 <= a < 256 /\ 0 <= b < 256 /\ 0 <= c < 256 /\ 0 <= d < 256 /\
    v = a * 16777216 + b * 65536 + c * 256 + d /\
    p = sa ++ [46] ++ sb ++ [46] ++ sc ++ [46] ++ sd ++ r /\
    number_text sa a /\ number_text sb b /\ number_text sc c /\ number_text sd d.
Proof. exact ScanIPv4_sound. Qed.
Print Assumptions C07_ipv4_only.

Example C07_met : ScanIPv4 (lit "192.168.3.15 ") = Ok (3232236303, [32]).
Proof. reflexivity. Qed.

(** ** C08: dates to day numbers *)

Theorem C08_date_number_partial : forall d n rest,
  valid_date d -> 1969 <= yr d <= 369689 -> day_number d n -> is_digit (cur rest) = false ->
  ScanUnixDate (date_text d ++ rest) = Ok (n, rest).
Proof. exact ScanUnixDate_ok. Qed.
Print Assumptions C08_date_number_partial.

Example C08_met : valid_date (mkdate 2024 2 29) /\ day_number (mkdate 2024 2 29) 19782 /\
  date_text (mkdate 2024 2 29) = lit "2024-02-29".
Proof.
  split; [split; cbv; split; discriminate|]. split; [|reflexivity].
  change 19782 with (rata (mkdate 2024 2 29)). apply rata_day_number. split; cbv; split; discriminate.
Qed.

(** What is missing: years before 1969 get a wrong day number. *)
Theorem C08_before_1969_refuted : exists d n m,
  valid_date d /\ yr d = 1968 /\ day_number d n /\ ScanUnixDate (date_text d) = Ok (m, []) /\ m <> n.
Proof. exact ScanUnixDate_1968. Qed.
Print Assumptions C08_before_1969_refuted.

(** ** C09: day numbers to dates *)

Theorem C09_date_text_partial : forall v d,
  int32 v -> INT_MIN + 10957 <= v -> valid_date d -> day_number d v ->
  UnixDate2Str v = if last_of_leap_year d then Fail else Ok (date_text d).
Proof. exact UnixDate2Str_ok. Qed.
Print Assumptions C09_date_text_partial.

Theorem C09_date_roundtrip_partial : forall v d t,
  valid_date d -> day_number d v -> 1969 <= yr d <= 369689 ->
  UnixDate2Str v = Ok t -> ScanUnixDate t = Ok (v, []).
Proof. exact ScanUnixDate_UnixDate2Str. Qed.
Print Assumptions C09_date_roundtrip_partial.

Example C09_met : UnixDate2Str 19782 = Ok (lit "2024-02-29") /\ UnixDate2Str (-141427) = Ok (lit "1582-10-15").
Proof. split; vm_compute; reflexivity. Qed.

(** What is missing: December 31 of every leap year has no text (the first theorem above says
    it is the only exception). *)
Theorem C09_leap_december_refuted : exists v d,
  int32 v /\ valid_date d /\ day_number d v /\ UnixDate2Str v = Fail.
Proof. exact leap_december. Qed.
Print Assumptions C09_leap_december_refuted.

(** ** C10: time stamps *)

Theorem C10_time_roundtrip : forall t d rest,
  uint32 t -> valid_date d -> day_number d (t / 86400) -> is_digit (cur rest) = false ->
  ScanUnixTime (time_text 32 d (t mod 86400 / 3600) (t mod 3600 / 60) (t mod 60) ++ rest) = Ok (t, rest).
Proof. exact time_roundtrip. Qed.
Print Assumptions C10_time_roundtrip.

Theorem C10_msec_roundtrip : forall t d rest,
  0 <= t / 1000 <= UINT32_MAX -> valid_date d -> day_number d (t / 86400000) ->
  ScanUnixTime64msec (time_text 32 d (t mod 86400000 / 3600000) (t mod 3600000 / 60000) (t mod 60000 / 1000)
     ++ [46] ++ fmt0 3 (t mod 1000) ++ rest) = Ok (t, rest).
Proof. exact msec_roundtrip. Qed.
Print Assumptions C10_msec_roundtrip.

(** ISO form with 'Z', and with a numeric zone: the instant is converted to UTC. *)
Theorem C10_msec_zone : forall d n h m s ms sign zh zm,
  valid_date d -> day_number d n -> 0 <= n -> 0 <= h < 24 -> 0 <= m < 60 -> 0 <= s < 60 -> 0 <= ms < 1000 ->
  0 <= zh < 24 -> 0 <= zm < 60 -> sign = 43 \/ sign = 45 ->
  n * 86400 + h * 3600 + m * 60 + s <= UINT32_MAX ->
  let utc := n * 86400 + h * 3600 + m * 60 + s + (if sign =? 43 then - (zh * 3600 + zm * 60) else zh * 3600 + zm * 60) in
  0 <= utc <= UINT32_MAX ->
  ScanUnixTime64msec (time_text 84 d h m s ++ [46] ++ fmt0 3 ms ++ [sign] ++ fmt0 2 zh ++ [58] ++ fmt0 2 zm)
  = Ok (utc * 1000 + ms, []).
Proof. exact ScanUnixTime64msec_zone. Qed.
Print Assumptions C10_msec_zone.

(** Every 32-bit instant has such a date, so the hypotheses of the theorems above are always met. *)
Example C10_met : forall t, uint32 t -> exists d, valid_date d /\ day_number d (t / 86400).
Proof. intros t Ht. apply day_number_exists. unfold uint32 in Ht. lia. Qed.

(** A time of day after the last 32-bit second is not rejected but wraps to 1970. *)
Theorem C10_last_day_refuted : exists d h,
  valid_date d /\ day_number d 49710 /\ 0 <= h < 24 /\
  ScanUnixTime (time_text 32 d h 0 0) = Ok (49710 * 86400 + h * 3600 - 4294967296, []).
Proof. exact ScanUnixTime_wrap. Qed.
Print Assumptions C10_last_day_refuted.
