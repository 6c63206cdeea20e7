(** Model of src/bin_xml_types.cpp: the value types, their detection, storage and printing. *)
From Verif Require Import Base NumSpec CalSpec Scan Base64 Dates.

(** ** include/binary_xml/bin_xml_types.h:27-54: enum XML_Binary_Type.  Types are stored in single
    bytes, so any byte may turn up where a type is read; hence plain numbers. *)
Definition XBT_NULL := 0.
Definition XBT_VARIANT := 1.
Definition XBT_STRING := 2.
Definition XBT_BLOB := 3.
Definition XBT_INT32 := 4.
Definition XBT_INT64 := 5.
Definition XBT_FLOAT := 6.
Definition XBT_DOUBLE := 7.
Definition XBT_HEX := 8.
Definition XBT_GUID := 9.
Definition XBT_SHA1 := 10.
Definition XBT_UNIX_TIME := 11.
Definition XBT_IPv4 := 12.
Definition XBT_IPv6 := 13.
Definition XBT_UNKNOWN := 14.
Definition XBT_UINT64 := 15.
Definition XBT_UNIX_TIME64_MSEC := 16.
Definition XBT_UINT32 := 17.
Definition XBT_UNIX_DATE := 18.
Definition XBT_INT32_DECI := 19.
Definition XBT_INT32_CENTI := 20.
Definition XBT_INT32_MILI := 21.
Definition XBT_INT32_MICRO := 22.
Definition XBT_INT32_NANO := 23.
Definition XBT_BLOB_STRING := 24.
Definition XBT_LAST := 25.

(** Membership in a list of types ([t == A || t == B || ...]). *)
Definition isin (t : Z) (l : list Z) : bool := existsb (Z.eqb t) l.

(** bin_xml_types.h:67, 70 (XBT_IS_4, XBT_IS_INT32), 68 (XBT_IS_8), 72-73 *)
Definition XBT_IS_4 (t : Z) : bool :=
  isin t [XBT_INT32; XBT_INT32_DECI; XBT_INT32_CENTI; XBT_INT32_MILI; XBT_INT32_MICRO; XBT_INT32_NANO;
          XBT_FLOAT; XBT_UNIX_TIME; XBT_IPv4; XBT_UINT32].
Definition XBT_IS_8 (t : Z) : bool := isin t [XBT_INT64; XBT_DOUBLE; XBT_UNIX_TIME64_MSEC; XBT_UINT64].
Definition XBT_IS_VARSIZE (t : Z) : bool := isin t [XBT_BLOB; XBT_HEX; XBT_BLOB_STRING].
Definition XBT_FIXEDSIZE (t : Z) : Z :=
  if t =? XBT_NULL then 0
  else if isin t [XBT_INT64; XBT_DOUBLE; XBT_UINT64; XBT_UNIX_TIME64_MSEC] then 8
  else if t =? XBT_GUID then 16 else if t =? XBT_SHA1 then 20 else if t =? XBT_IPv6 then 16 else -1.

(** ** Type detection *)

(** The counters of XBT_Detect, src/bin_xml_types.cpp:53-70.  [len] of the C code is never
    changed, so it is the constant 0 and [exponent_pos] is -1 or 0. *)
Record counters := mkcnt {
  c_digits : Z; c_decimals : Z; c_hexadigits : Z; c_negative : Z; c_dots : Z; c_dashes : Z; c_colons : Z;
  c_others : Z; c_exponent : Z; c_spaces : Z; c_whites : Z; c_exponent_pos : Z; c_overflow64 : bool;
  c_X : Z; c_EX : Z }.
Definition counters0 : counters := mkcnt 0 0 0 0 0 0 0 0 0 0 0 (-1) false 0 0.

(** One round of the loop, src/bin_xml_types.cpp:79-121. *)
Definition count_char (s : counters) (c : Z) : counters :=
  let '(mkcnt dg dc hx ng dt ds co ot ex sp wh ep ov X EX) := s in
  if c =? 45 then mkcnt dg dc hx (if 0 =? ep + 1 then ng + 1 else ng) dt (ds + 1) co ot ex sp wh ep ov X EX
  else if (48 <=? c) && (c <=? 57) then
    let X' := u64 (X * 10 + (c - 48)) in
    mkcnt (dg + 1) (if 0 <? dt then dc + 1 else dc) hx ng dt ds co ot ex sp wh ep (if X' <? X then true else ov)
      X' (u64 (EX * 10 + (c - 48)))
  else if (97 <=? c) && (c <=? 102) then mkcnt dg dc (hx + 1) ng dt ds co ot ex sp wh ep ov X EX
  else if (65 <=? c) && (c <=? 70) then
    if c =? 69 then mkcnt dg dc (hx + 1) ng dt ds co ot (ex + 1) sp wh 0 ov X 0
    else mkcnt dg dc (hx + 1) ng dt ds co ot ex sp wh ep ov X EX
  else if c =? 46 then mkcnt dg dc hx ng (dt + 1) ds co ot ex sp wh ep ov X EX
  else if c =? 58 then mkcnt dg dc hx ng dt ds (co + 1) ot ex sp wh ep ov X EX
  else if c =? 32 then mkcnt dg dc hx ng dt ds co ot ex (sp + 1) (wh + 1) ep ov X EX
  else if (c =? 10) || (c =? 9) || (c =? 13) then mkcnt dg dc hx ng dt ds co ot ex sp (wh + 1) ep ov X EX
  else mkcnt dg dc hx ng dt ds co (ot + 1) ex sp wh ep ov X EX.

(** The decisions, src/bin_xml_types.cpp:140-200; [v] is the text behind the "0x" prefix,
    [str_len] the length of the whole text. *)
Definition decide (hex_prefix str_len : Z) (v : list Z) (s : counters) : Z :=
  let '(mkcnt digits decimals hexadigits negative dots dashes colons others exponent spaces whites exponent_pos overflow64 X EX) := s in
  let at_ i := nth i v 0 in
  if (hex_prefix =? 0) && (7 <=? str_len) && (str_len <=? 15) && (4 <=? digits) && (hexadigits =? 0) && (negative =? 0)
     && (dots =? 3) && (dashes =? 0) && (colons =? 0) && (others =? 0) && (exponent =? 0) && (spaces =? 0) && (whites =? 0)
     && (exponent_pos =? -1) && negb overflow64
  then XBT_IPv4
  else if (str_len =? 10) && (digits =? 8) && (at_ 4%nat =? 45) && (at_ 7%nat =? 45) then XBT_UNIX_DATE
  else if (0 <? digits) && (digits <=? 19) && (hexadigits =? 0) && (negative <=? 1) && (dots =? 0) && (dashes <=? 1)
     && (colons =? 0) && (others =? 0) && (exponent =? 0) && (spaces =? 0) && (whites =? 0) && negb overflow64
  then
    if (negative =? 0) && (X <=? 2147483647) then XBT_INT32
    else if (negative =? 1) && (X <=? 2147483648) then XBT_INT32
    else if (negative =? 0) && (Z.shiftr X 32 =? 0) then XBT_UINT32
    else if (negative =? 0) && (9223372036854775807 <? X) then XBT_UINT64
    else XBT_INT64
  else
  let decimal :=
    if (0 <? digits) && (dots =? 1) && (hexadigits =? 0) && (dashes <=? 1) && (colons =? 0) && (others =? 0)
       && (exponent =? 0) && negb overflow64
       && (((negative =? 0) && (X <=? 2147483647)) || ((negative =? 1) && (X <=? 2147483648)))
    then if decimals =? 1 then Some XBT_INT32_DECI
         else if decimals =? 2 then Some XBT_INT32_CENTI
         else if decimals =? 3 then Some XBT_INT32_MILI
         else if decimals <=? 6 then Some XBT_INT32_MICRO
         else if decimals <=? 9 then Some XBT_INT32_NANO
         else None
    else None in
  match decimal with
  | Some t => t
  | None =>
  if (0 <? digits) && (hexadigits - exponent =? 0) && (negative <=? 2) && (dots <=? 1) && (dashes <=? 2) && (colons =? 0)
     && (others =? 0) && (exponent <=? 1)
  then if (38 <? EX) || (8 <=? digits) then XBT_DOUBLE else XBT_FLOAT
  else if (digits + hexadigits =? 40) && (negative =? 0) && (dots =? 0) && (dashes =? 0) && (colons =? 0) && (others =? 0)
  then XBT_SHA1
  else if (hex_prefix =? 0) && (str_len =? 36) && (digits + hexadigits =? 32) && (decimals =? 0) && (dots =? 0) && (dashes =? 4)
     && (colons =? 0) && (others =? 0) && (exponent =? 0) && (spaces =? 0) && (whites =? 0) && (exponent_pos =? -1)
  then XBT_GUID
  else
  let t_shape := (at_ 4%nat =? 45) && (at_ 7%nat =? 45) && (at_ 13%nat =? 58) && (at_ 16%nat =? 58) in
  if (str_len =? 19) && (digits =? 14) && (spaces =? 1) && (negative =? 2) && (colons =? 2) && t_shape
  then XBT_UNIX_TIME
  else if (str_len =? 23) && (digits =? 17) && (spaces =? 1) && (negative =? 2) && (colons =? 2) && t_shape && (at_ 19%nat =? 46)
  then XBT_UNIX_TIME64_MSEC
  else if (str_len =? 24) && (digits =? 17) && (spaces =? 0) && (negative =? 2) && (colons =? 2)
     && (at_ 10%nat =? 84) && (at_ 23%nat =? 90) && t_shape && (at_ 19%nat =? 46)
  then XBT_UNIX_TIME64_MSEC
  else if (0 <? digits + hexadigits) && (negative =? 0) && (dots =? 0) && (dashes =? 0) && (colons =? 0) && (others =? 0)
  then XBT_HEX
  else XBT_STRING
  end.

(** src/bin_xml_types.cpp:49-201; a null pointer behaves as the empty text. *)
Definition XBT_Detect (value : list Z) : Z :=
  match value with
  | [] => XBT_NULL
  | _ =>
    let hex := (nth 0 value 0 =? 48) && (nth 1 value 0 =? 120) in
    let v := if hex then skipn 2 value else value in
    decide (if hex then 1 else 0) (zlen value) v (fold_left count_char v counters0)
  end.

(** src/bin_xml_types.cpp:203-249 *)
Definition is_int32_family (t : Z) : bool :=
  isin t [XBT_INT32; XBT_INT32_DECI; XBT_INT32_CENTI; XBT_INT32_MILI; XBT_INT32_MICRO; XBT_INT32_NANO].
Definition is_number4 (t : Z) : bool := isin t [XBT_INT32; XBT_INT64; XBT_FLOAT; XBT_DOUBLE].
Definition num_mask (t : Z) : Z :=
  Z.lor (if isin t [XBT_FLOAT; XBT_DOUBLE] then 1 else 0) (if isin t [XBT_INT64; XBT_DOUBLE] then 2 else 0).
Definition XBT_JoinTypes (A B : Z) : Z :=
  if A =? XBT_BLOB_STRING then A else if B =? XBT_BLOB_STRING then B
  else if A =? XBT_STRING then A else if B =? XBT_STRING then B
  else if A =? XBT_VARIANT then A
  else if A =? XBT_NULL then B else if A =? XBT_LAST then B else if A =? XBT_UNKNOWN then B
  else if B =? XBT_VARIANT then B
  else if B =? XBT_NULL then A else if B =? XBT_LAST then A else if B =? XBT_UNKNOWN then A
  else if B =? A then B
  else if is_int32_family A && is_int32_family B then
    let has t := (A =? t) || (B =? t) in
    if has XBT_INT32_NANO then XBT_INT32_NANO
    else if has XBT_INT32_MICRO then XBT_INT32_MICRO
    else if has XBT_INT32_MILI then XBT_INT32_MILI
    else if has XBT_INT32_CENTI then XBT_INT32_CENTI
    else if has XBT_INT32_DECI then XBT_INT32_DECI
    else XBT_INT32
  else if is_number4 B && is_number4 A then
    znth [XBT_INT32; XBT_FLOAT; XBT_INT64; XBT_DOUBLE] (Z.lor (num_mask B) (num_mask A))
  else XBT_VARIANT.

(** src/bin_xml_types.cpp:251-256 *)
Definition XBT_Detect2 (value : list Z) (expected : Z) : Z :=
  if expected =? XBT_VARIANT then expected else XBT_JoinTypes (XBT_Detect value) expected.

(** src/bin_xml_creator.cpp:1200-1252 (FindOrAdd): the type of a name is detected from its first
    value and then joined with the others. *)
Definition column_type (values : list (list Z)) : Z :=
  match values with
  | [] => XBT_NULL
  | v :: r => fold_left (fun ty v => XBT_Detect2 v ty) r (XBT_Detect v)
  end.

(** ** Comparison *)

(** memcmp / strcmp: only the sign is specified; -1, 0, 1 stand for it.  Bytes compare unsigned. *)
Fixpoint memcmp (a b : list Z) : Z :=
  match a, b with
  | x :: a', y :: b' => if x <? y then -1 else if y <? x then 1 else memcmp a' b'
  | [], [] => 0
  | [], _ => -1
  | _, [] => 1
  end.

(** The C string at the start of a byte sequence. *)
Fixpoint cstr (l : list Z) : list Z :=
  match l with
  | [] => []
  | c :: r => if c =? 0 then [] else c :: cstr r
  end.

Definition cmpZ (x y : Z) : Z := if x <? y then -1 else if y <? x then 1 else 0.

(** IEEE order on the bit pattern of a float with [w] value bits below the sign and exponent mask
    [inf]: NaN compares neither below nor above anything, so the macro answers 0. *)
Definition fkey (signbit : Z) (bits : Z) : Z := if signbit <=? bits then - (bits - signbit) else bits.
Definition fnan (signbit inf bits : Z) : bool := inf <? bits mod signbit.
Definition fcmp (signbit inf : Z) (x y : Z) : Z :=
  if fnan signbit inf x || fnan signbit inf y then 0 else cmpZ (fkey signbit x) (fkey signbit y).

(** src/bin_xml_types.cpp:258-307; the contents are byte sequences and their lengths are the sizes.
    STRING and BLOB_STRING ignore the size and compare up to the NUL. *)
Definition XBT_Compare (A_type : Z) (A : list Z) (B_type : Z) (B : list Z) : Z :=
  let fixed n f := if negb ((zlen A =? n) && (zlen B =? n)) then INT_NULL_VALUE else f (unle A) (unle B) in
  if A_type =? B_type then
    if isin A_type [XBT_INT32; XBT_INT32_DECI; XBT_INT32_CENTI; XBT_INT32_MILI; XBT_INT32_MICRO; XBT_INT32_NANO; XBT_UNIX_DATE]
    then fixed 4 (fun x y => cmpZ (s32 x) (s32 y))
    else if isin A_type [XBT_UINT32; XBT_UNIX_TIME] then fixed 4 cmpZ
    else if isin A_type [XBT_UNIX_TIME64_MSEC; XBT_INT64] then fixed 8 (fun x y => cmpZ (s64 x) (s64 y))
    else if A_type =? XBT_UINT64 then fixed 8 cmpZ
    else if A_type =? XBT_FLOAT then fixed 4 (fcmp (2 ^ 31) 2139095040)
    else if A_type =? XBT_DOUBLE then fixed 8 (fcmp (2 ^ 63) 9218868437227405312)
    else if isin A_type [XBT_STRING; XBT_BLOB_STRING] then memcmp (cstr A) (cstr B)
    else if isin A_type [XBT_HEX; XBT_GUID; XBT_SHA1; XBT_IPv4; XBT_IPv6] then
      if zlen A =? zlen B then memcmp A B else INT_NULL_VALUE
    else INT_NULL_VALUE
  else if zlen A =? zlen B then memcmp A B else INT_NULL_VALUE.

(** ** Sizes and alignment *)

(** Doubling loop, src/bin_xml_types.cpp:319; shifting past 2^30 overflows [int]. *)
Fixpoint double_until (fuel : nat) (size length : Z) : outcome Z :=
  if size <? length then
    match fuel with
    | O => Ub
    | S k => if INT_MAX <? size * 2 then Ub else double_until k (size * 2) length
    end
  else Ok size.

(** src/bin_xml_types.cpp:309-326.  The loop doubles at most 26 times before it overflows. *)
Definition XBT_GetBLOB_STRING_Size (length0 : Z) : outcome Z :=
  if INT_MAX <? length0 + 1 then Ub else
  let length := length0 + 1 in
  if length <=? 16 then Ok 16 else
  obind (double_until 31 16 length) (fun size =>
  let size_75prc := size - Z.shiftr size 2 in
  Ok (if length <=? size_75prc then size_75prc else size)).

(** src/bin_xml_types.cpp:328-398; -1 is the failed assertion.  [Ub] = overflow in the reserve. *)
Definition XBT_Size2 (ty size : Z) : outcome Z :=
  let fix_ n r := Ok (if (size =? 0) || (size =? n) then r else -1) in
  if isin ty [XBT_NULL; XBT_UNKNOWN; XBT_LAST] then Ok (if size =? 0 then 0 else -1)
  else if ty =? XBT_VARIANT then Ok (-1)
  else if ty =? XBT_STRING then Ok (size + 1)
  else if ty =? XBT_BLOB_STRING then obind (XBT_GetBLOB_STRING_Size size) (fun s => Ok (4 + s))
  else if isin ty [XBT_BLOB; XBT_HEX] then Ok (size + 4)
  else if isin ty [XBT_INT32; XBT_UINT32; XBT_INT32_DECI; XBT_INT32_CENTI; XBT_INT32_MILI; XBT_INT32_MICRO; XBT_INT32_NANO;
                   XBT_FLOAT; XBT_UNIX_TIME; XBT_UNIX_DATE; XBT_IPv4] then fix_ 4 4
  else if isin ty [XBT_INT64; XBT_UINT64; XBT_DOUBLE; XBT_UNIX_TIME64_MSEC] then fix_ 8 8
  else if isin ty [XBT_GUID; XBT_IPv6] then fix_ 16 16
  else if ty =? XBT_SHA1 then fix_ 20 24
  else Ok 0.

(** src/bin_xml_types.cpp:400-437 *)
Definition XBT_Align (ty : Z) : Z :=
  if isin ty [XBT_BLOB_STRING; XBT_BLOB; XBT_HEX; XBT_INT32; XBT_INT32_DECI; XBT_INT32_CENTI; XBT_INT32_MILI; XBT_INT32_MICRO;
              XBT_INT32_NANO; XBT_UINT32; XBT_FLOAT; XBT_GUID; XBT_SHA1; XBT_UNIX_TIME; XBT_UNIX_DATE; XBT_IPv4] then 4
  else if isin ty [XBT_UINT64; XBT_INT64; XBT_DOUBLE; XBT_IPv6; XBT_UNIX_TIME64_MSEC] then 8
  else 0.

(** AA / AA8 according to an alignment (0: none). *)
Definition align_to (a x : Z) : Z := if a =? 4 then align_up 4 x else if a =? 8 then align_up 8 x else x.

(** What a copy did: where it stored which bytes, and the new write position. *)
Record stored := mkstored { st_pos : Z; st_bytes : list Z; st_wp : Z }.

(** src/bin_xml_types.cpp:439-470.  [src] is the readable memory from the source pointer on;
    reading past it, or a negative count given to memcpy, is [Ub]. *)
Definition XBT_Copy (src : list Z) (ty size wp limit : Z) : outcome stored :=
  obind (XBT_Size2 ty size) (fun value_size =>
  let align_size := XBT_Align ty in
  if limit - wp <? value_size + align_size then Fail
  else if ty =? XBT_STRING then
    if zlen (cstr src) =? zlen src then Ub (* no terminator *)
    else Ok (mkstored wp (cstr src ++ [0]) (wp + value_size))
  else if (align_size =? 4) || (align_size =? 8) then
    let pos := align_to align_size wp in
    if (value_size <? 0) || (zlen src <? value_size) then Ub
    else Ok (mkstored pos (ztake value_size src) (pos + value_size))
  else Ok (mkstored wp [] (wp + value_size))).

(** ** From text *)

(** src/bin_xml_types.cpp:478-492: digits into an [int32_t]; [k] limits their number. *)
Fixpoint dec_digits (k : option nat) (value : Z) (p : list Z) : outcome (Z * nat * list Z) :=
  match p with
  | c :: r =>
      if is_digit c then
        match k with
        | Some O => Ok (value, O, p)
        | _ =>
          let value' := value * 10 + c - 48 in
          if int32b (value * 10) && int32b (value * 10 + c) then
            obind (dec_digits (option_map pred k) value' r) (fun '(v, n, q) => Ok (v, S n, q))
          else Ub
        end
      else Ok (value, O, p)
  | [] => Ok (value, O, [])
  end.
(** src/bin_xml_types.cpp:493-497 *)
Fixpoint dec_scale (k : nat) (value : Z) : outcome Z :=
  match k with
  | O => Ok value
  | S k' => if int32b (value * 10) then dec_scale k' (value * 10) else Ub
  end.
(** src/bin_xml_types.cpp:472-501 *)
Definition str2dec (src : list Z) (decimals : nat) : outcome Z :=
  let neg := cur src =? 45 in
  let p := if neg then tl src else src in
  obind (dec_digits None 0 p) (fun '(value, _, p1) =>
  obind (if cur p1 =? 46 then dec_digits (Some decimals) value (tl p1) else Ok (value, O, p1)) (fun '(value, n, _) =>
  obind (dec_scale (decimals - n) value) (fun value => Ok (if neg then - value else value)))).

(** libc's atoi as glibc does it: [(int)strtol(p, NULL, 10)], strtol clamps to [long]. *)
Fixpoint take_digits (v : Z) (p : list Z) : Z :=
  match p with
  | c :: r => if is_digit c then take_digits (v * 10 + (c - 48)) r else v
  | [] => v
  end.
Definition atoi (p : list Z) : Z :=
  let p0 := skip_spaces p in
  let neg := cur p0 =? 45 in
  let p1 := if neg || (cur p0 =? 43) then tl p0 else p0 in
  let v := take_digits 0 p1 in
  s32 (if neg then Z.max INT64_MIN (- v) else Z.min INT64_MAX v).

(** The two libc conversions of floating point numbers are external: [f_atof] gives the 32-bit
    pattern stored by [(float)atof(src)], [f_print] the text of "%f" for a pattern. *)
Record floats := mkfloats { f_atof : list Z -> Z; f_print : Z -> list Z }.

(** src/bin_xml_types.cpp:503-656: position and bytes stored.  [limit] is consulted by HEX only.
    INT64/UINT64 move the write position after a successful scan. *)
Definition XBT_FromString (fl : floats) (src : list Z) (ty wp limit : Z) : outcome stored :=
  let p4 := align_up 4 wp in
  let p8 := align_up 8 wp in
  let put pos bs := Ok (mkstored pos bs (pos + zlen bs)) in
  let dec k := obind (str2dec src k) (fun v => put p4 (le 4 v)) in
  if ty =? XBT_NULL then match src with [] => Ok (mkstored wp [] wp) | _ => Fail end
  else if ty =? XBT_INT32 then put p4 (le 4 (atoi src))
  else if ty =? XBT_INT32_DECI then dec 1%nat
  else if ty =? XBT_INT32_CENTI then dec 2%nat
  else if ty =? XBT_INT32_MILI then dec 3%nat
  else if ty =? XBT_INT32_MICRO then dec 6%nat
  else if ty =? XBT_INT32_NANO then dec 9%nat
  else if ty =? XBT_IPv4 then obind (ScanIPv4 src) (fun '(v, _) => put p4 (le 4 v))
  else if ty =? XBT_INT64 then obind (ScanInt64 src) (fun '(v, _) => put p8 (le 8 v))
  else if ty =? XBT_UINT64 then obind (ScanUInt64 src) (fun '(v, _) => put p8 (le 8 v))
  else if ty =? XBT_STRING then put wp (src ++ [0])
  else if ty =? XBT_GUID then
    let '(n, bs, _) := ScanHex src 16 in if n =? 16 then put p4 bs else Fail
  else if ty =? XBT_SHA1 then
    let '(n, bs, _) := ScanHex src 20 in if n =? 20 then put p4 bs else Fail
  else if ty =? XBT_HEX then
    if limit <? p4 + 4 then Ub else
    let '(n, bs, _) := ScanHex src (limit - (p4 + 4)) in put p4 (le 4 n ++ bs)
  else if ty =? XBT_FLOAT then put p4 (le 4 (f_atof fl src))
  else if ty =? XBT_UNIX_TIME then obind (ScanUnixTime src) (fun '(v, _) => put p4 (le 4 v))
  else if ty =? XBT_UNIX_TIME64_MSEC then obind (ScanUnixTime64msec src) (fun '(v, _) => put p4 (le 8 v))
  else if ty =? XBT_UNIX_DATE then obind (ScanUnixDate src) (fun '(v, _) => put p4 (le 4 v))
  else Fail.

(** src/bin_xml_types.cpp:658-698 *)
Definition XBT_SizeFromString (src : list Z) (ty : Z) : outcome Z :=
  if ty =? XBT_NULL then Ok 0
  else if isin ty [XBT_INT32; XBT_INT32_DECI; XBT_INT32_CENTI; XBT_INT32_MILI; XBT_INT32_MICRO; XBT_INT32_NANO; XBT_FLOAT;
                   XBT_UNIX_DATE; XBT_UNIX_TIME; XBT_IPv4; XBT_UINT32] then Ok 4
  else if isin ty [XBT_INT64; XBT_DOUBLE; XBT_UNIX_TIME64_MSEC; XBT_UINT64] then Ok 8
  else if ty =? XBT_STRING then Ok (zlen src)
  else if ty =? XBT_SHA1 then Ok 20
  else if isin ty [XBT_GUID; XBT_IPv6] then Ok 16
  else if ty =? XBT_BLOB_STRING then XBT_GetBLOB_STRING_Size (zlen src)
  else if ty =? XBT_HEX then Ok (Z.shiftr (zlen src + 1) 1)
  else Ok (-1).

(** ** To text *)

(** libc's gmtime_r for a day number: the Gregorian date (proved against CalSpec in TypesProofs). *)
Definition gm_month (lp : bool) (r : Z) : Z :=
  let off := if lp then LEAP_MONTH_OFFSET else MONTH_OFFSET in
  fold_left (fun m k => if znth off (k - 1) <=? r then k else m) [1; 2; 3; 4; 5; 6; 7; 8; 9; 10; 11; 12] 1.
Definition gm_date (day : Z) : date :=
  let '(y, _, r) := c_year_day day in
  let m := gm_month (leap y) r in
  mkdate y m (1 + r - znth (if leap y then LEAP_MONTH_OFFSET else MONTH_OFFSET) (m - 1)).

(** "%d.%0kd" of a fixed-point value, src/bin_xml_types.cpp:851-895 *)
Definition fixed_text (k : Z) (V : Z) : list Z :=
  sdec (Z.quot V (10 ^ k)) ++ [46] ++ fmt0 k (Z.rem (Z.abs V) (10 ^ k)).

(** Buffers: store [bs] at index [i]. *)
Definition bput (dst : list Z) (i : Z) (bs : list Z) : list Z := ztake i dst ++ bs ++ zskip (i + zlen bs) dst.

(** Result of one call: returned length, new offset, new contents of the buffer. *)
Record chunk := mkchunk { ck_ret : Z; ck_offset : Z; ck_dst : list Z }.

(** Everything that is printed whole: [bs] with its NUL at the start of the buffer. *)
Definition whole (dst : list Z) (offset' : Z) (bs : list Z) : outcome chunk :=
  Ok (mkchunk (zlen bs) offset' (bput dst 0 (bs ++ [0]))).

(** src/bin_xml_types.cpp:800-1081.  [data] is the memory from the (already aligned) value on;
    [dst] is the buffer with its old contents, [zlen dst] its size.  [Fail] is the result -1 of an
    assertion; the [assert(false)] of the default branch stops the process: [Ub].  The
    texts of the numeric types are shorter than the smallest admitted buffer (257 bytes), so
    snprintf does not cut them; the branches GUID, SHA1 and HEX stay inside the buffer for the
    same reason. *)
Definition XBT_ToStringChunk (fl : floats) (ty : Z) (data : list Z) (offset : Z) (dst0 : list Z) : outcome chunk :=
  if zlen dst0 <=? 256 then Fail else
  let dst_size := zlen dst0 - 1 in
  let dst := bput dst0 dst_size [0] in
  let once f := if 0 <? offset then Ok (mkchunk 0 offset dst) else f in
  let w4 := unle (ztake 4 data) in
  let w8 := unle (ztake 8 data) in
  let text s :=
    let len := zlen s - offset in
    if len <=? 0 then Ok (mkchunk 0 offset dst)
    else
      let p := zskip offset s in
      let copied := ztake dst_size p in
      let dst' := bput dst 0 (copied ++ zrepeat 0 (dst_size - zlen copied)) in
      let out := zlen (cstr dst') in
      Ok (mkchunk out (offset + out) dst') in
  let fixed k := let V := s32 w4 in
     once (if V =? INT_MIN then Ub else whole dst (offset + 4) (fixed_text k V)) in
  let number ds :=
    (* digits are built at the end of the buffer, src/bin_xml_types.cpp:931-943, 956-965,
       then moved to its start without a terminator *)
    let len := zlen ds in
    let dst' := bput dst (dst_size - 1 - len) (ds ++ [0]) in
    Ok (mkchunk len (offset + 8) (bput dst' 0 ds)) in
  if ty =? XBT_NULL then Ok (mkchunk 0 offset dst)
  else if ty =? XBT_STRING then text (cstr data)
  else if ty =? XBT_BLOB_STRING then text (cstr (zskip 4 data))
  else if ty =? XBT_INT32 then once (whole dst (offset + 4) (sdec (s32 w4)))
  else if ty =? XBT_INT32_DECI then fixed 1
  else if ty =? XBT_INT32_CENTI then fixed 2
  else if ty =? XBT_INT32_MILI then fixed 3
  else if ty =? XBT_INT32_MICRO then fixed 6
  else if ty =? XBT_INT32_NANO then fixed 9
  else if ty =? XBT_UINT32 then once (whole dst (offset + 4) (udec w4))
  else if ty =? XBT_IPv4 then
    once (whole dst (offset + 4)
            (quad (Z.shiftr w4 24) (Z.land (Z.shiftr w4 16) 255) (Z.land (Z.shiftr w4 8) 255) (Z.land w4 255)))
  else if ty =? XBT_INT64 then
    once (let value := s64 w8 in
          if value =? 0 then Ok (mkchunk 1 (offset + 8) (bput dst 0 [48; 0]))
          else if value =? -576460752303423488 then whole dst (offset + 8) (lit "9223372036854775808")
          else if value =? INT64_MIN then Ub
          else match dec_loop 38 (Z.abs value) [] with
               | Some ds => number (if value <? 0 then 45 :: ds else ds)
               | None => Ub
               end)
  else if ty =? XBT_UINT64 then
    once (if w8 =? 0 then Ok (mkchunk 1 (offset + 8) (bput dst 0 [48; 0]))
          else match dec_loop 38 w8 [] with Some ds => number ds | None => Ub end)
  else if ty =? XBT_FLOAT then once (whole dst (offset + 4) (f_print fl w4))
  else if ty =? XBT_UNIX_TIME then
    once (whole (zrepeat 0 dst_size ++ [0]) (offset + 4)
            (time_text 32 (gm_date (w4 / 86400)) (w4 mod 86400 / 3600) (w4 mod 3600 / 60) (w4 mod 60)))
  else if ty =? XBT_UNIX_DATE then
    once (match UnixDate2Str (s32 w4) with
          | Ok t => whole dst (offset + 4) t
          | Fail => Ok (mkchunk 0 (offset + 4) dst)
          | Ub => Ub
          end)
  else if ty =? XBT_UNIX_TIME64_MSEC then
    once (let value := s64 w8 in
          let t := Z.quot value 1000 in
          whole (zrepeat 0 dst_size ++ [0]) (offset + 8)
            (date_text (gm_date (t / 86400)) ++ [32] ++ fmtsp 2 (t mod 86400 / 3600) ++ [58] ++ fmt0 2 (t mod 3600 / 60)
               ++ [58] ++ fmt0 2 (t mod 60) ++ [46] ++ fmt0 3 (Z.rem value 1000)))
  else if ty =? XBT_BLOB then
    let size := w4 in
    if s32 size <=? offset then Ok (mkchunk 0 offset (bput dst 0 [0]))
    else
      let max_chunk := Z.shiftr (dst_size - 1) 2 * 3 in
      let left := s32 size - offset in
      let n := if max_chunk <? left then max_chunk else left in
      let '(t, term) := base64_encode (ztake n (zskip (4 + offset) data)) dst_size in
      let dst' := bput dst 0 (t ++ if term then [0] else []) in
      Ok (mkchunk (zlen (cstr dst')) (offset + n) dst')
  else if ty =? XBT_HEX then
    let size := w4 in
    if s32 size <=? offset then Ok (mkchunk 0 offset (bput dst 0 [0]))
    else
      let n := Z.min 16 (u32 (size - offset)) in
      if dst_size <? n * 16 + 2 then Fail
      else
        let t := Hex2Str (ztake n (zskip (4 + offset) data)) in
        Ok (mkchunk (zlen t + 2) (offset + n) (bput dst 0 (t ++ [10; 0])))
  else if ty =? XBT_GUID then
    if 20 <=? offset then Ok (mkchunk 0 offset dst)
    else
      let t := Hex2Str (ztake (16 - offset) (zskip offset data)) in
      Ok (mkchunk (2 * (16 - offset)) 16 (bput dst 0 (t ++ [0])))
  else if ty =? XBT_SHA1 then
    if 20 <=? offset then Ok (mkchunk 0 offset dst)
    else
      let t := Hex2Str (ztake (20 - offset) (zskip offset data)) in
      Ok (mkchunk (2 * (20 - offset)) 20 (bput dst 0 (t ++ [0])))
  else Ub.

(** The caller's loop, src/bin_xml_types.cpp:1083-1095 and 1097-1115: the pieces [dst[0..len)]
    delivered until the answer is 0.  [None]: the fuel did not suffice. *)
Fixpoint chunk_loop (fl : floats) (fuel : nat) (ty : Z) (data : list Z) (offset : Z) (dst : list Z) : option (outcome (list (list Z))) :=
  match fuel with
  | O => None
  | S k =>
      match XBT_ToStringChunk fl ty data offset dst with
      | Fail => Some Fail
      | Ub => Some Ub
      | Ok c =>
          if ck_ret c =? 0 then Some (Ok [])
          else match chunk_loop fl k ty data (ck_offset c) (ck_dst c) with
               | None => None
               | Some (Ok l) => Some (Ok (ztake (ck_ret c) (ck_dst c) :: l))
               | Some Fail => Some Fail
               | Some Ub => Some Ub
               end
      end
  end.

(** src/bin_xml_types.cpp:1108-1112 *)
Definition xml_escape (c : Z) : list Z :=
  if c =? 60 then lit "&lt;" else if c =? 62 then lit "&gt;" else if c =? 38 then lit "&amp;"
  else if c =? 34 then [38; 113; 117; 111; 116; 59] else [c].

(** src/bin_xml_types.cpp:1097-1115; [buf0] is the uninitialised 4097-byte buffer. *)
Definition XBT_ToXMLStream (fl : floats) (fuel : nat) (ty : Z) (data buf0 : list Z) : option (outcome (list Z)) :=
  match chunk_loop fl fuel ty data 0 buf0 with
  | Some (Ok l) => Some (Ok (flat_map xml_escape (List.concat l)))
  | Some Fail => Some Fail
  | Some Ub => Some Ub
  | None => None
  end.

(** src/bin_xml_types.cpp:1083-1095: [os << buffer] stops at a NUL inside the piece. *)
Definition XBT_ToStringStream (fl : floats) (fuel : nat) (ty : Z) (data buf0 : list Z) : option (outcome (list Z)) :=
  match chunk_loop fl fuel ty data 0 buf0 with
  | Some (Ok l) => Some (Ok (List.concat (map cstr l)))
  | Some Fail => Some Fail
  | Some Ub => Some Ub
  | None => None
  end.

(** ** XBT_ToString, src/bin_xml_types.cpp:700-798 *)

(** The static state: 64 buffers of 257 bytes and the index of the next one (708-709).  The
    second buffer (XBT_Buffer, 1229-1239) keeps old contents but is only used by BLOB and HEX. *)
Record ring := mkring { rg_bufs : list (list Z); rg_idx : Z }.
Definition ring0 : ring := mkring (repeat (zrepeat 0 257) 64) 0.

Definition set_nth {A} (l : list A) (i : Z) (x : A) : list A := ztake i l ++ [x] ++ zskip (i + 1) l.

(** What the caller gets: no text (nullptr), a text inside the document or the output buffer
    ([Text]), or a ring buffer ([Slot i], to be read from the state). *)
Inductive shown := NoText | Text (t : list Z) | Slot (i : Z).

(** src/bin_xml_types.cpp:779-789: lines of 16 bytes. *)
Fixpoint hex_lines (fuel : nat) (src : list Z) : list Z :=
  match fuel with
  | O => []
  | S k => match src with [] => [] | _ => Hex2Str (firstn 16 src) ++ [10] ++ hex_lines k (skipn 16 src) end
  end.

(** [out_buf] is what XBT_Buffer delivers (old contents of at least [dst_size] bytes): base64_encode
    does not terminate the text when the buffer is tight, and old bytes show. *)
Definition XBT_ToString (fl : floats) (ty : Z) (data out_buf : list Z) (st : ring) : outcome (shown * ring) :=
  let i := rg_idx st in
  let next := if 64 <=? i + 1 then 0 else i + 1 in
  if ty =? XBT_NULL then Ok (NoText, st)
  else if ty =? XBT_STRING then Ok (Text (cstr data), st)
  else if ty =? XBT_GUID then
    let buf := bput (nth (Z.to_nat i) (rg_bufs st) []) 0 (GUID2Str (ztake 16 data) ++ [0]) in
    Ok (Slot i, mkring (set_nth (rg_bufs st) i buf) next)
  else if isin ty [XBT_INT32; XBT_INT32_DECI; XBT_INT32_CENTI; XBT_INT32_MILI; XBT_INT32_MICRO; XBT_INT32_NANO; XBT_UINT32;
                   XBT_INT64; XBT_UINT64; XBT_FLOAT; XBT_UNIX_TIME; XBT_UNIX_DATE; XBT_UNIX_TIME64_MSEC; XBT_SHA1] then
    obind (XBT_ToStringChunk fl ty data 0 (nth (Z.to_nat i) (rg_bufs st) [])) (fun c =>
    Ok (Slot i, mkring (set_nth (rg_bufs st) i (ck_dst c)) next))
  else if ty =? XBT_BLOB_STRING then
    let size := unle (ztake 4 data) in
    if znth data (4 + size - 1) =? 0 then Ok (Text (cstr (zskip 4 data)), st) else Ok (Text [], st)
  else if ty =? XBT_BLOB then
    let size := unle (ztake 4 data) in
    if size =? 0 then Ok (NoText, st)
    else
      let dst_size := size / 3 * 4 + 5 in
      let '(t, term) := base64_encode (ztake size (zskip 4 data)) dst_size in
      Ok (Text (cstr (bput out_buf 0 (t ++ if term then [0] else []))), st)
  else if ty =? XBT_HEX then
    let size := unle (ztake 4 data) in
    if size =? 0 then Ok (NoText, st)
    else Ok (Text (hex_lines (S (Z.to_nat (size / 16))) (ztake size (zskip 4 data))), st)
  else Ok (NoText, st).

(** What the caller reads later through the pointer. *)
Definition shown_text (s : shown) (st : ring) : option (list Z) :=
  match s with
  | NoText => None
  | Text t => Some t
  | Slot i => Some (cstr (nth (Z.to_nat i) (rg_bufs st) []))
  end.

(** src/bin_xml_types.cpp:1148-1214 *)
Inductive convertable := NONCONVERTABLE | LOOSE_CONVERTABLE | CONVERTABLE.
Definition XBT_ConvertableType (src dst : Z) : convertable :=
  if src =? dst then CONVERTABLE
  else if dst =? XBT_NULL then LOOSE_CONVERTABLE
  else if dst =? XBT_VARIANT then NONCONVERTABLE
  else if dst =? XBT_STRING then if isin src [XBT_BLOB; XBT_HEX] then NONCONVERTABLE else CONVERTABLE
  else if isin dst [XBT_BLOB_STRING; XBT_BLOB] then CONVERTABLE
  else if dst =? XBT_INT32 then
    if isin src [XBT_UINT32; XBT_INT64; XBT_UINT64; XBT_STRING] then NONCONVERTABLE
    else if isin src [XBT_UNIX_TIME; XBT_UNIX_DATE] then CONVERTABLE
    else if isin src [XBT_FLOAT; XBT_DOUBLE; XBT_UNIX_TIME64_MSEC; XBT_INT32_DECI; XBT_INT32_CENTI; XBT_INT32_MILI;
                      XBT_INT32_MICRO; XBT_INT32_NANO] then LOOSE_CONVERTABLE
    else NONCONVERTABLE
  else NONCONVERTABLE.

(** src/bin_xml_types.cpp:1117-1146: a reference is a type and its data; a STRING is converted to
    the other type first, into a fresh 16-aligned buffer of [size+64] bytes. *)
Definition XBT_Equal (fl : floats) (A_type : Z) (A : list Z) (B_type : Z) (B : list Z) : outcome bool :=
  let same a b := Ok ((zlen a =? zlen b) && (memcmp a b =? 0)) in
  if A_type =? B_type then same A B
  else if A_type =? XBT_STRING then
    match XBT_FromString fl (cstr A) B_type 0 (zlen A + 64) with
    | Ok s => same (st_bytes s) B
    | Fail => Ok false
    | Ub => Ub
    end
  else if B_type =? XBT_STRING then
    match XBT_FromString fl (cstr B) A_type 0 (zlen B + 64) with
    | Ok s => same A (st_bytes s)
    | Fail => Ok false
    | Ub => Ub
    end
  else Ok false.
