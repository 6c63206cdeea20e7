(** Model of the text scanners and number printers of src/utils.cpp.

    A scanner that takes [const char *&p] becomes a function from the rest of the string
    to the scanned value and the new rest.  On failure the C code may leave [p] advanced;
    no caller modelled here looks at [p] after a failure, so the position is dropped then. *)
From Verif Require Import Base.

(** Accumulation loop [while (isdigit( *p1)) x = x*10 + ( *(p1++) - '0');] for a signed
    accumulator with maximum [mx] (src/utils.cpp:290-291, 328-329).  Signed overflow is
    undefined behaviour, reported as [None]. *)
Fixpoint digits_signed (mx x : Z) (p : list Z) : option (Z * list Z) :=
  match p with
  | c :: r =>
      if is_digit c then
        if mx <? x * 10 then None
        else let x' := x * 10 + (c - 48) in
             if mx <? x' then None else digits_signed mx x' r
      else Some (x, p)
  | [] => Some (x, [])
  end.

(** src/utils.cpp:280-296 (ScanInt), 318-334 (ScanInt64); [mx] is the maximum of the type. *)
Definition scan_signed (mx : Z) (p : list Z) : outcome (Z * list Z) :=
  let p0 := skip_spaces p in
  let neg := cur p0 =? 45 in
  let p1 := if neg then tl p0 else p0 in
  if negb (is_digit (cur p1)) then Fail
  else match digits_signed mx 0 p1 with
       | None => Ub
       | Some (x, r) => Ok (if neg then - x else x, r)
       end.

(** src/utils.cpp:280-296 *)
Definition ScanInt (p : list Z) : outcome (Z * list Z) := scan_signed INT_MAX p.

(** src/utils.cpp:318-334 *)
Definition ScanInt64 (p : list Z) : outcome (Z * list Z) := scan_signed INT64_MAX p.

(** src/utils.cpp:361-362: decimal accumulation in a [uint64_t], which wraps. *)
Fixpoint digits_u64 (x : Z) (p : list Z) : Z * list Z :=
  match p with
  | c :: r => if is_digit c then digits_u64 (u64 (x * 10 + (c - 48))) r else (x, p)
  | [] => (x, [])
  end.

(** Value of a hexadecimal digit, [None] for other characters (src/utils.cpp:348-354,
    379-385, 771-787). *)
Definition hexval (c : Z) : option Z :=
  if (48 <=? c) && (c <=? 57) then Some (c - 48)
  else if (65 <=? c) && (c <=? 70) then Some (c - 65 + 10)
  else if (97 <=? c) && (c <=? 102) then Some (c - 97 + 10)
  else None.

(** src/utils.cpp:346-355, 377-386: hexadecimal accumulation in a [uint64_t]. *)
Fixpoint hex_u64 (x : Z) (p : list Z) : Z * list Z :=
  match p with
  | c :: r => match hexval c with
              | Some v => hex_u64 (u64 (Z.shiftl x 4 + v)) r
              | None => (x, p)
              end
  | [] => (x, [])
  end.

(** src/utils.cpp:336-368 *)
Definition ScanUInt64 (p : list Z) : outcome (Z * list Z) :=
  let p1 := skip_spaces p in
  if (cur p1 =? 48) && (cur (tl p1) =? 120) then
    let p2 := tl (tl p1) in
    if negb (is_xdigit (cur p2)) then Fail else Ok (hex_u64 0 p2)
  else if negb (is_digit (cur p1)) then Fail
  else Ok (digits_u64 0 p1).

(** src/utils.cpp:370-391 *)
Definition ScanUInt64Hex (p : list Z) : outcome (Z * list Z) :=
  let p1 := skip_spaces p in
  if negb (is_xdigit (cur p1)) then Fail else Ok (hex_u64 0 p1).

Definition octet (a : Z) : bool := (0 <=? a) && (a <? 256).

(** src/utils.cpp:298-316.  The C code evaluates the conjunction left to right;
    [A << 24] with [A >= 128] is a signed overflow in the type system of C++14 that every
    supported compiler defines as the two's complement result converted to [uint32_t]. *)
Definition ScanIPv4 (p : list Z) : outcome (Z * list Z) :=
  obind (ScanInt p) (fun '(a, p1) =>
  if negb (octet a && (cur p1 =? 46)) then Fail else
  obind (ScanInt (tl p1)) (fun '(b, p2) =>
  if negb (octet b && (cur p2 =? 46)) then Fail else
  obind (ScanInt (tl p2)) (fun '(c, p3) =>
  if negb (octet c && (cur p3 =? 46)) then Fail else
  obind (ScanInt (tl p3)) (fun '(d, p4) =>
  if negb (octet d) then Fail else
  Ok (Z.lor (Z.lor (Z.lor (Z.shiftl a 24) (Z.shiftl b 16)) (Z.shiftl c 8)) d, p4))))).

(** src/utils.cpp:265-278: [Scan(p, beg)] skips spaces and a literal prefix. *)
Fixpoint strip_prefix (beg p : list Z) : option (list Z) :=
  match beg with
  | [] => Some p
  | b :: beg' => match p with
                 | c :: p' => if c =? b then strip_prefix beg' p' else None
                 | [] => None
                 end
  end.
Definition Scan (p beg : list Z) : option (list Z) := strip_prefix beg (skip_spaces p).

(** src/utils.cpp:1013-1057: hexadecimal branch of GetInt; [int] arithmetic, [None] on
    overflow of [x << 4] or of the addition. *)
Fixpoint hex_int (x : Z) (p : list Z) : option Z :=
  match p with
  | c :: r => match hexval c with
              | Some v => if INT_MAX <? x * 16 then None
                          else if INT_MAX <? x * 16 + c then None
                          else hex_int (x * 16 + v) r
              | None => Some x
              end
  | [] => Some x
  end.

(** src/utils.cpp:1003-1069; a failing scan returns INT_NULL_VALUE = INT_MIN
    (include/binary_xml/macros.h INT_NULL_VALUE). *)
Definition INT_NULL_VALUE : Z := INT_MIN.
Definition GetInt (p : list Z) : outcome Z :=
  let p0 := skip_spaces p in
  let neg := cur p0 =? 45 in
  let p1 := if neg then tl p0 else p0 in
  if (cur p1 =? 48) && (cur (tl p1) =? 120) then
    let p2 := tl (tl p1) in
    if negb (is_xdigit (cur p2)) then Ok INT_NULL_VALUE
    else match hex_int 0 p2 with None => Ub | Some x => Ok (if neg then - x else x) end
  else if negb (is_digit (cur p1)) then Ok INT_NULL_VALUE
  else match digits_signed INT_MAX 0 p1 with
       | None => Ub
       | Some (x, _) => Ok (if neg then - x else x)
       end.

(** src/utils.cpp:1072-1087: the loop runs at most four times; [k] counts the remaining
    iterations, so the shift is [8*(k-1)] bits for i = 4-k. *)
Definition limite (v lo hi : Z) : Z := if v <? lo then lo else if hi <? v then hi else v.
Fixpoint version_loop (k : nat) (version : Z) (p : list Z) : outcome Z :=
  match k with
  | O => Ok version
  | S k' =>
      match p with
      | [] => Ok version
      | _ =>
        match ScanInt p with
        | Fail => Ok version
        | Ub => Ub
        | Ok (v, r) =>
            let version' := Z.lor version (u32 (Z.shiftl (limite v 0 255) (8 * Z.of_nat k'))) in
            if cur r =? 46 then version_loop k' version' (tl r) else Ok version'
        end
      end
  end.
Definition GetVersion (p : list Z) : outcome Z := version_loop 4 0 p.

(** Digit loop shared by Int64ToStr (src/utils.cpp:1196-1201) and XBT_ToStringChunk
    (src/bin_xml_types.cpp INT64/UINT64 branches): writes digits backwards into a buffer with
    [room] free bytes; [None] means it would run below the start of the buffer. *)
Fixpoint dec_loop (room : nat) (v : Z) (acc : list Z) : option (list Z) :=
  if v <=? 0 then Some acc
  else match room with
       | O => None
       | S k => dec_loop k (v / 10) ((48 + v mod 10) :: acc)
       end.

(** src/utils.cpp:1185-1206.  [value = -value] overflows for INT64_MIN: the result is the text
    ["-"] on two's complement hardware, but undefined behaviour for the language, so [Ub]. *)
Definition Int64ToStr (value : Z) : outcome (list Z) :=
  if value =? INT64_MIN then Ub
  else
    let neg := value <? 0 in
    let v := if neg then - value else value in
    match (if v =? 0 then Some [48] else dec_loop 38 v []) with
    | None => Ub
    | Some ds => Ok (if neg then 45 :: ds else ds)
    end.

(** src/utils.cpp:761-794: ScanHex; stores into a zeroed buffer of [dst_size] bytes. Result: count
    returned, bytes stored (in order), rest of the text. *)
Fixpoint scan_hex_loop (n : nat) (count : Z) (p : list Z) : Z * list Z * list Z :=
  match n with
  | O => (count, [], p)
  | S n' =>
      let p0 := if cur p =? 45 then tl p else if cur p =? 32 then tl p else p in
      match hexval (cur p0) with
      | None => (count, [], p0)
      | Some h =>
          match hexval (cur (tl p0)) with
          | None => (count, [], p0)
          | Some l =>
              let '(c, out, r) := scan_hex_loop n' (count + 1) (tl (tl p0)) in
              (c, Z.lor (Z.shiftl h 4) l :: out, r)
          end
      end
  end.
Definition ScanHex (p : list Z) (dst_size : Z) : Z * list Z * list Z :=
  match p with
  | [] => (0, [], [])
  | _ => scan_hex_loop (Z.to_nat dst_size) 0 p
  end.

(** Hexadecimal digit characters (HEX, HEX_UP in src/utils.cpp). *)
Definition hexchar (v : Z) : Z := if v <? 10 then 48 + v else 87 + v.
Definition hexchar_up (v : Z) : Z := if v <? 10 then 48 + v else 55 + v.

(** src/utils.cpp:796-807 *)
Definition Hex2Str (src : list Z) : list Z :=
  flat_map (fun b => [hexchar (Z.shiftr b 4); hexchar (Z.land b 15)]) src.

(** src/utils.cpp:809-822 *)
Definition Hex3Str (src : list Z) : list Z :=
  flat_map (fun b => [hexchar_up (Z.shiftr b 4); hexchar_up (Z.land b 15); 32]) src.

(** src/utils.cpp:824-866: the 32 digits with dashes inserted after 8, 12, 16 and 20. *)
Definition GUID2Str (src : list Z) : list Z :=
  let h := Hex2Str src in
  firstn 8 h ++ [45] ++ firstn 4 (skipn 8 h) ++ [45] ++ firstn 4 (skipn 12 h) ++ [45] ++
  firstn 4 (skipn 16 h) ++ [45] ++ firstn 12 (skipn 20 h).

(** src/utils.cpp:675-708: ScanStr; result: stored value, rest, and whether it is non-empty.
    [value_size] is unsigned; the value is cut to [value_size - 1] characters. *)
Fixpoint scan_str_loop (stop : Z -> bool) (room : Z) (p : list Z) : list Z * list Z :=
  match p with
  | [] => ([], [])
  | c :: r =>
      if stop c then ([], p)
      else let '(v, rest) := scan_str_loop stop (if 1 <? room then room - 1 else room) r in
           (if 1 <? room then c :: v else v, rest)
  end.
Definition ScanStr (p : list Z) (separator value_size : Z) : list Z * list Z * bool :=
  let p0 := skip_spaces p in
  let '(v, rest) :=
    if separator =? 32 then scan_str_loop is_space value_size p0
    else scan_str_loop (fun c => c =? separator) value_size p0 in
  (v, tl rest, match v with [] => false | _ => true end).
