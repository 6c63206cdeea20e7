(** Model of the self test of the value types, src/bin_xml_types.cpp:1251-1374. *)
From Verif Require Import Base NumSpec Scan Base64 Dates Types.

(** src/bin_xml_types.cpp:1297-1321: the loop over the printed pieces; every piece is printed into
    a buffer of 4096 zeroes.  [failures], [str_offset] as in the code.  [None]: out of fuel. *)
Fixpoint test_pieces (fl : floats) (fuel : nat) (ty : Z) (src data : list Z) (offset str_offset failures : Z) : option (outcome (Z * Z)) :=
  match fuel with
  | O => None
  | S k =>
      match XBT_ToStringChunk fl ty data offset (zrepeat 0 4096) with
      | Ub => Some Ub
      | Fail => Some (Ok (str_offset, failures))
      | Ok c =>
          if ck_ret c <=? 0 then Some (Ok (str_offset, failures))
          else
            let failures :=
              if zlen src <? ck_ret c + str_offset then failures + 1
              else if negb (if list_eq_dec Z.eq_dec (ztake (ck_ret c) (zskip str_offset src)) (ztake (ck_ret c) (ck_dst c)) then true else false)
                   then failures + 1 else failures in
            test_pieces fl k ty src data (ck_offset c) (str_offset + ck_ret c) failures
      end
  end.

(** src/bin_xml_types.cpp:1251-1329.  The text [src] has at most INT_MAX / 2 characters; [buffer]
    is aligned and its bytes are not initialised: [junk] stands for them, and for what a
    conversion that fails leaves there; it has moved the position by [left] bytes then.  The
    messages are left out; a wrong detected type is reported (T1) but not counted. *)
Definition XBT_TestType (fl : floats) (fuel : nat) (junk : list Z) (left : Z) (ty : Z) (src : list Z) (hex : option (list Z)) : option (outcome Z) :=
  let buffer_len := zlen src * 2 in
  let go (data image : list Z) (failures : Z) :=
    let failures := match hex with
                    | Some h => if list_eq_dec Z.eq_dec h (Hex2Str image) then failures else failures + 1
                    | None => failures
                    end in
    match test_pieces fl fuel ty src data 0 0 failures with
    | Some (Ok (str_offset, failures)) => Some (Ok (if str_offset =? zlen src then failures else failures + 1))
    | Some Fail => Some Fail
    | Some Ub => Some Ub
    | None => None
    end in
  match XBT_FromString fl src ty 0 buffer_len with
  | Ub => Some Ub
  | Fail => go (ztake buffer_len junk) (ztake left junk) 1
  | Ok s => if buffer_len <? st_wp s then Some Ub
            else go (st_bytes s ++ zskip (st_wp s) (ztake buffer_len junk)) (st_bytes s) 0
  end.

(** src/bin_xml_types.cpp:1333-1374: the calls of the self test in their order.  The loop of lines
    1359-1368 is not entered: [2 << 30] is 2^31, which becomes a negative [int]. *)
Definition self_tests : list (Z * list Z * list Z) :=
  [(XBT_STRING, lit "Petr Kundrata", lit "50657472204b756e647261746100");
   (XBT_NULL, [], []);
   (XBT_INT32, lit "125", lit "7d000000");
   (XBT_INT32, lit "2147483647", lit "ffffff7f");
   (XBT_INT32, lit "-2147483648", lit "00000080");
   (XBT_INT64, lit "-2147483648000", lit "000000000cfeffff");
   (XBT_SHA1, lit "9b6aa6cc7c5a71c13fc7ee1011ef309c333a904c", lit "9b6aa6cc7c5a71c13fc7ee1011ef309c333a904c");
   (XBT_IPv4, lit "127.0.0.1", lit "0100007f");
   (XBT_IPv4, lit "192.168.255.255", lit "ffffa8c0");
   (XBT_UNIX_TIME, lit "1970-01-01 00:00:00", lit "00000000");
   (XBT_UNIX_TIME, lit "2021-06-15 22:41:40", lit "a42cc960");
   (XBT_UNIX_DATE, lit "2000-01-01", lit "cd2a0000");
   (XBT_UNIX_DATE, lit "1999-12-31", lit "cc2a0000");
   (XBT_UNIX_TIME64_MSEC, lit "2026-03-20T15:51:55.773Z", lit "4dd18e1b9d0100");
   (XBT_GUID, lit "fcac7dbb-08c7-478d-bf97-7e595ca39aab", lit "fcac7dbb08c7478dbf977e595ca39aab");
   (XBT_GUID, lit "4f5b7603-6d55-45e6-8c60-07aa5fc6c945", lit "4f5b76036d5545e68c6007aa5fc6c945");
   (XBT_UNIX_DATE, lit "1970-01-01", lit "00000000");
   (XBT_UNIX_DATE, lit "1969-12-31", lit "ffffffff");
   (XBT_UNIX_TIME64_MSEC, lit "1970-01-01 00:00:00.000", lit "0000000000000000")].

(** [ok = XBT_TestType(type,src,hex) && ok;] for each of the tests, from [ok = true]. *)
Fixpoint run_tests (fl : floats) (fuel : nat) (junk : list Z) (left : Z) (tests : list (Z * list Z * list Z)) (ok : bool) : option (outcome bool) :=
  match tests with
  | [] => Some (Ok ok)
  | (ty, src, hex) :: ts =>
      match XBT_TestType fl fuel junk left ty src (Some hex) with
      | Some (Ok failures) => run_tests fl fuel junk left ts (negb (failures =? 0) && ok)
      | Some Fail => Some Fail
      | Some Ub => Some Ub
      | None => None
      end
  end.
Definition XBT_Test (fl : floats) (fuel : nat) (junk : list Z) (left : Z) : option (outcome bool) := run_tests fl fuel junk left self_tests true.
