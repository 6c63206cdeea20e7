(** Model of the date and time conversions of src/utils.cpp. *)
From Verif Require Import Base NumSpec Scan.

(** src/utils.cpp:393-407 *)
Definition MONTH_OFFSET : list Z := [0; 31; 59; 90; 120; 151; 181; 212; 243; 273; 304; 334].
(** src/utils.cpp:409-423 *)
Definition LEAP_MONTH_OFFSET : list Z := [0; 31; 60; 91; 121; 152; 182; 213; 244; 274; 305; 335].
(** src/utils.cpp:425 *)
Definition MAX_DAY : Z := 49710.

(** src/utils.cpp:452, 555; C's [%] is [Z.rem]. *)
Definition c_is_leap (year : Z) : bool :=
  ((Z.rem year 4 =? 0) && negb (Z.rem year 100 =? 0)) || (Z.rem year 400 =? 0).

(** "year-month-day" prefix shared by ScanUnixTime (434-439) and ScanUnixDate (537-542). *)
Definition scan_ymd (p : list Z) : outcome (Z * Z * Z * list Z) :=
  obind (ScanInt p) (fun '(year, p1) =>
  if negb (cur p1 =? 45) then Fail else
  obind (ScanInt (tl p1)) (fun '(month, p2) =>
  if (month <? 1) || (12 <? month) then Fail else
  if negb (cur p2 =? 45) then Fail else
  obind (ScanInt (tl p2)) (fun '(day, p3) => Ok (year, month, day, p3)))).

(** src/utils.cpp:550-560 / 447-457: day number of a date; C's [/] is [Z.quot]. *)
Definition c_days (year month day : Z) : Z :=
  (year - 1970) * 365 + Z.quot (year - 1968 - 1) 4 - Z.quot (year - 1900 - 1) 100
  + Z.quot (year - 1600 - 1) 400
  + znth (if c_is_leap year then LEAP_MONTH_OFFSET else MONTH_OFFSET) (month - 1)
  + (day - 1).

(** src/utils.cpp:531-563; the sum can only leave the [int32_t] range (undefined behaviour)
    through the last addition, because the day is not limited. *)
Definition ScanUnixDate (p : list Z) : outcome (Z * list Z) :=
  obind (scan_ymd p) (fun '(year, month, day, p3) =>
  if (year <? -365749) || (369689 <? year) then Fail else
  let value := c_days year month day in
  if int32b value then Ok (value, p3) else Ub).

(** src/utils.cpp:427-483.  [value] is a [uint32_t] and wraps; [(year-1970)*365], [hour*3600]
    and [minute*60] are [int] products, undefined when they overflow. *)
Definition ScanUnixTime (p : list Z) : outcome (Z * list Z) :=
  obind (scan_ymd p) (fun '(year, month, day, p3) =>
  if year <? 1970 then Fail else
  if negb (int32b ((year - 1970) * 365)) then Ub else
  let days := u32 (c_days year month day) in
  if MAX_DAY <? days then Fail else
  let value := u32 (days * 86400) in
  if cur p3 =? 0 then Ok (value, p3) else
  if negb (cur p3 =? 32) && negb (cur p3 =? 84) then Fail else
  obind (ScanInt (tl p3)) (fun '(hour, p4) =>
  if negb (int32b (hour * 3600)) then Ub else
  let value := u32 (value + hour * 3600) in
  if cur p4 =? 0 then Ok (value, p4) else
  if negb (cur p4 =? 58) then Fail else
  obind (ScanInt (tl p4)) (fun '(minute, p5) =>
  if negb (int32b (minute * 60)) then Ub else
  let value := u32 (value + minute * 60) in
  if negb (cur p5 =? 58) then Fail else
  obind (ScanInt (tl p5)) (fun '(second, p6) =>
  Ok (u32 (value + second), p6))))).

(** src/utils.cpp:509 *)
Fixpoint skip_digits (p : list Z) : list Z :=
  match p with
  | c :: r => if is_digit c then skip_digits r else p
  | [] => []
  end.

(** src/utils.cpp:485-529.  [start10] is the character at index 10 of the whole text.
    The zone offset is applied to the [uint32_t] seconds (wraps); when the scan of the offset
    fails the time is left unchanged (515-521). *)
Definition ScanUnixTime64msec (p : list Z) : outcome (Z * list Z) :=
  obind (ScanUnixTime p) (fun '(tm32, p1) =>
  if negb (cur p1 =? 46) then Ok (tm32 * 1000, tl p1) else
  match tl p1 with
  | a :: b :: c :: p2 =>
      if is_digit a && is_digit b && is_digit c then
        let v000 := 100 * (a - 48) + 10 * (b - 48) + (c - 48) in
        if nth 10 p 0 =? 84 then
          let p3 := skip_digits p2 in
          if (cur p3 =? 43) || (cur p3 =? 45) then
            let sign := cur p3 in
            match ScanInt (tl p3) with
            | Ub => Ub
            | Fail => Ok (v000 + tm32 * 1000, tl p3)
            | Ok (hour, p4) =>
                if cur p4 =? 58 then
                  match ScanInt (tl p4) with
                  | Ub => Ub
                  | Fail => Ok (v000 + tm32 * 1000, tl p4)
                  | Ok (mins, p5) =>
                      if negb (int32b (hour * 3600) && int32b (mins * 60) && int32b (hour * 3600 + mins * 60)) then Ub else
                      let tm32' := if sign =? 43 then u32 (tm32 - (hour * 3600 + mins * 60))
                                   else u32 (tm32 + (hour * 3600 + mins * 60)) in
                      Ok (v000 + tm32' * 1000, p5)
                  end
                else Ok (v000 + tm32 * 1000, tl p4)
            end
          else Ok (v000 + tm32 * 1000, p3)
        else Ok (v000 + tm32 * 1000, p2)
      else Fail
  | _ => Fail
  end).

(** src/utils.cpp:570-595: the tables DAY2MONTH / DAY2MONTH_LEAP list the month of every day of
    the year; [repeat] writes the runs of equal entries. *)
Definition DAY2MONTH : list Z :=
  repeat 1 31 ++ repeat 2 28 ++ repeat 3 31 ++ repeat 4 30 ++ repeat 5 31 ++ repeat 6 30 ++
  repeat 7 31 ++ repeat 8 31 ++ repeat 9 30 ++ repeat 10 31 ++ repeat 11 30 ++ repeat 12 31.
Definition DAY2MONTH_LEAP : list Z :=
  repeat 1 31 ++ repeat 2 29 ++ repeat 3 31 ++ repeat 4 30 ++ repeat 5 31 ++ repeat 6 30 ++
  repeat 7 31 ++ repeat 8 31 ++ repeat 9 30 ++ repeat 10 31 ++ repeat 11 30 ++ repeat 12 31.

(** src/utils.cpp:599-643: year, leap flag and day of the year. *)
Definition c_year_day (value0 : Z) : Z * bool * Z :=
  let value := value0 - 10957 in
  let y400 := Z.quot value 146097 - (if value <? 0 then 1 else 0) in
  let value := value - y400 * 146097 in
  let year := 2000 + y400 * 400 in
  if value <? 366 then (year, true, value)
  else
    let value := value - 1 in
    let y100 := Z.quot value 36524 in
    let value := value - y100 * 36524 in
    let year := year + y100 * 100 in
    if value <? 365 then (year, false, value)
    else
      let value := value + 1 in
      let y4 := Z.quot value 1461 in
      let value := value - y4 * 1461 in
      let year := year + y4 * 4 in
      if value <? 366 then (year, true, value)
      else
        let value := value - 1 in
        let y1 := Z.quot value 365 in
        (year + y1, false, value - y1 * 365).

(** src/utils.cpp:597-660; [Fail] = nullptr (failed assertion 2023 / 2024),
    [Ub] = overflow of [value -= 10957].  The two assertions carry each other's bound, so in the
    non-leap branch an index 365 would be read past DAY2MONTH: [Ub]. *)
Definition UnixDate2Str (value : Z) : outcome (list Z) :=
  if negb (int32b (value - 10957)) then Ub else
  let '(year, is_leap, v) := c_year_day value in
  if is_leap then
    if (0 <=? v) && (v <? 365) then
      let month := znth DAY2MONTH_LEAP v in
      let day := 1 + v - znth LEAP_MONTH_OFFSET (month - 1) in
      Ok (fmt0 4 year ++ [45] ++ fmt0 2 month ++ [45] ++ fmt0 2 day)
    else Fail
  else
    if (0 <=? v) && (v <? 366) then
      if 365 <=? v then Ub else
      let month := znth DAY2MONTH v in
      let day := 1 + v - znth MONTH_OFFSET (month - 1) in
      Ok (fmt0 4 year ++ [45] ++ fmt0 2 month ++ [45] ++ fmt0 2 day)
    else Fail.

(** src/utils.cpp:662-673; the result of UnixDate2Str is used without a check for nullptr. *)
Definition UnixTime642Str (value : Z) : outcome (list Z) :=
  match UnixDate2Str (s32 (Z.quot value 86400000)) with
  | Ok t =>
      let v := Z.rem value 86400000 in
      Ok (t ++ [32] ++ fmt0 2 (Z.rem (Z.quot v 3600000) 24) ++ [58] ++ fmt0 2 (Z.rem (Z.quot v 60000) 60)
            ++ [58] ++ fmt0 2 (Z.rem (Z.quot v 1000) 60) ++ [46] ++ fmt0 3 (Z.rem v 1000))
  | Fail => Ub
  | Ub => Ub
  end.
