(** Model of the scanners of a writable text, src/utils.cpp:869-1000.  They are the same as
    those of [Scan.v], but here the position is kept when a scan fails: the result is what is
    left of the text and the value, if there is one.  Bytes from 128 on are no blanks and no
    digits, as in the C locale. *)
From Verif Require Import Base Scan LineSpec.

(** src/utils.cpp:869-882: [ScanW].  [p] stands behind the blanks if the word is not there. *)
Definition ScanW (p beg : list Z) : list Z * bool :=
  let p0 := skip_spaces p in
  match strip_prefix beg p0 with
  | Some p1 => (p1, true)
  | None => (p0, false)
  end.

(** src/utils.cpp:884-900, 902-918: the common text of [ScanIntW] and [ScanInt64W]; [mx] is the
    maximum of the type of [x].  Overflow is undefined. *)
Definition scan_number (mx : Z) (p : list Z) : outcome (list Z * option Z) :=
  let p0 := skip_spaces p in
  let neg := cur p0 =? 45 in
  let p1 := if neg then tl p0 else p0 in
  if negb (is_digit (cur p1)) then Ok (p0, None)
  else match digits_signed mx 0 p1 with
       | None => Ub
       | Some (x, r) => Ok (r, Some (if neg then - x else x))
       end.

(** src/utils.cpp:884-900 *)
Definition ScanIntW (p : list Z) : outcome (list Z * option Z) := scan_number INT_MAX p.
(** src/utils.cpp:902-918 *)
Definition ScanInt64W (p : list Z) : outcome (list Z * option Z) := scan_number INT64_MAX p.

(** src/utils.cpp:920-951 *)
Definition ScanUInt64W (p : list Z) : list Z * option Z :=
  let p0 := skip_spaces p in
  if (cur p0 =? 48) && (cur (tl p0) =? 120) then
    let p1 := tl (tl p0) in
    if negb (is_xdigit (cur p1)) then (p0, None)
    else let '(x, r) := hex_u64 0 p1 in (r, Some x)
  else if negb (is_digit (cur p0)) then (p0, None)
  else let '(x, r) := digits_u64 0 p0 in (r, Some x).

(** src/utils.cpp:958-980: the loop; [room] is [value_size], [d] what has been stored. *)
Fixpoint take_field (stop : Z -> bool) (room : Z) (d p : list Z) : list Z * list Z :=
  match p with
  | [] => (d, [])
  | c :: r => if stop c then (d, p)
              else if 1 <? room then take_field stop (room - 1) (d ++ [c]) r
              else take_field stop room d r
  end.

(** src/utils.cpp:953-984: [ScanStrW].  The buffer has [value_size] bytes; the NUL of line 982
    is written behind it if it has none.  Result: what is left, the stored text, and whether
    it is not empty. *)
Definition ScanStrW (p : list Z) (separator value_size : Z) : outcome (list Z * list Z * bool) :=
  let p0 := skip_spaces p in
  let '(d, q) := take_field (if separator =? 32 then is_space else Z.eqb separator) value_size [] p0 in
  if value_size <? 1 then Ub
  else Ok (tl q, d, negb (cur d =? 0)).

(** src/utils.cpp:986-989 *)
Definition SkipSpacesW (p : list Z) : list Z := skip_spaces p.

(** src/utils.cpp:991-997 *)
Fixpoint SkipLineW (p : list Z) : list Z * bool :=
  match p with
  | [] => ([], false)
  | c :: r => if c =? 10 then (r, true) else SkipLineW r
  end.

(** Not in the library: a program that reads the items of a line one after another, and then
    the lines of a text.  [wanted] says what to read, the values in it are not used. *)
Definition scan_item (wanted : item) (p : list Z) : outcome (list Z * option item) :=
  match wanted with
  | Word w => let '(q, ok) := ScanW p w in Ok (q, if ok then Some (Word w) else None)
  | Int32 _ => match ScanIntW p with Ok (q, v) => Ok (q, option_map Int32 v) | Fail => Fail | Ub => Ub end
  | Int64 _ => match ScanInt64W p with Ok (q, v) => Ok (q, option_map Int64 v) | Fail => Fail | Ub => Ub end
  | Unsigned _ => let '(q, v) := ScanUInt64W p in Ok (q, option_map Unsigned v)
  | Text sep size _ => match ScanStrW p sep size with
                       | Ok (q, d, ok) => Ok (q, if ok then Some (Text sep size d) else None)
                       | Fail => Fail
                       | Ub => Ub
                       end
  end.
Fixpoint scan_row (wanted : list item) (p : list Z) : outcome (list Z * list item) :=
  match wanted with
  | [] => Ok (p, [])
  | w :: ws => match scan_item w p with
               | Ok (q, Some i) => match scan_row ws q with Ok (r, is) => Ok (r, i :: is) | Fail => Fail | Ub => Ub end
               | Ok (_, None) => Fail
               | Fail => Fail
               | Ub => Ub
               end
  end.
Fixpoint scan_table (wanted : list (list item)) (p : list Z) : outcome (list (list item)) :=
  match wanted with
  | [] => Ok []
  | w :: ws => match scan_row w p with
               | Ok (q, is) => let '(r, ok) := SkipLineW q in
                               if ok then match scan_table ws r with Ok rs => Ok (is :: rs) | Fail => Fail | Ub => Ub end
                               else Fail
               | Fail => Fail
               | Ub => Ub
               end
  end.

(** [is] without its values. *)
Definition shape (i : item) : item :=
  match i with
  | Word w => Word w
  | Int32 _ => Int32 0
  | Int64 _ => Int64 0
  | Unsigned _ => Unsigned 0
  | Text sep size _ => Text sep size []
  end.
