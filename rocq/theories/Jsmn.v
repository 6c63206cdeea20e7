(** Model of the JSON tokenizer, src/jsmn/jsmn.c with JSMN_PARENT_LINKS and without JSMN_STRICT
    (include/binary_xml/jsmn/jsmn.h:10), and of the JSON source, src/bin_json_plugin.cpp.

    The text [js] is the list of its [len] bytes; [js[i]] is read for [i < len] only.  The token array is the list of the
    tokens handed out so far ([toknext] of them); touching another one is [Ub].  [num] is the size of the array. *)
From Verif Require Import Base Types Sort Xb XbWrite.

(** include/binary_xml/jsmn/jsmn.h:18-24, 33-40 *)
Definition JSMN_OBJECT := 1.
Definition JSMN_ARRAY := 2.
Definition JSMN_STRING := 3.
Definition JSMN_PRIMITIVE := 4.
Definition ERROR_NOMEM := -1.
Definition ERROR_INVAL := -2.
Definition ERROR_PART := -3.
(** jsmntok_t, jsmn.h:48-57; [tot] is total_size, [None] before it is set. *)
Record tok := T { ty : Z; st : Z; en : Z; sz : Z; par : Z; tot : option Z }.
(** jsmn_parser, jsmn.h:63-67, with the array: [None] is the null pointer, and toknext stays 0 then. *)
Record parser := P { pos : Z; toksuper : Z; toks : option (list tok) }.
Definition toknext (p : parser) : Z := match toks p with Some ts => zlen ts | None => 0 end.
Definition at_pos (p : parser) (x : Z) : parser := P x (toksuper p) (toks p).

(** jsmn_alloc_token and the stores that follow it, jsmn.c:6-30: the next token, if the array has one. *)
Definition alloc_token (num : Z) (ts : list tok) (t : tok) : option (list tok) :=
  if num <=? zlen ts then None else Some (ts ++ [t]).
(** tokens[toksuper].size++ *)
Definition grow (ts : list tok) (i : Z) : run (list tok) :=
  rbind (at_ ts i) (fun t => put ts i (T (ty t) (st t) (en t) (sz t + 1) (par t) (tot t))).
Definition grow_super (p : parser) : run parser :=
  match toks p with
  | Some ts => if toksuper p =? -1 then rret p else rbind (grow ts (toksuper p)) (fun ts => rret (P (pos p) (toksuper p) (Some ts)))
  | None => rret p
  end.

(** The loop of jsmn_parse_primitive, jsmn.c:42-56, on the text from the primitive on, [n] is its position: where it stops;
    [None] is the error. *)
Definition ends_primitive (c : Z) : bool := isin c [58; 9; 13; 10; 32; 44; 93; 125].
Fixpoint primitive_end (s : list Z) (n : Z) : option Z :=
  match s with
  | [] => Some n
  | c :: r => if (c =? 0) || ends_primitive c then Some n else if (s8 c <? 32) || (127 <=? s8 c) then None else primitive_end r (n + 1)
  end.
(** jsmn_parse_primitive, jsmn.c:35-79: result and parser. *)
Definition parse_primitive (js : list Z) (num : Z) (p : parser) : Z * parser :=
  let start := pos p in
  match primitive_end (zskip start js) start with
  | None => (ERROR_INVAL, p)
  | Some e =>
      match toks p with
      | None => (0, at_pos p (e - 1))
      | Some ts =>
          match alloc_token num ts (T JSMN_PRIMITIVE start e 0 (toksuper p) None) with
          | None => (ERROR_NOMEM, p)
          | Some ts => (0, P (e - 1) (toksuper p) (Some ts))
          end
      end
  end.

(** The loop of jsmn_parse_string, jsmn.c:94-146, on the text behind the opening quote: the position of the closing quote or
    the error.  A backslash that is the last byte of the text ends the loop like any other byte. *)
Inductive quoted := Plain | Escape | Hex (left : nat).
Inductive found := At (n : Z) | Error (e : Z).
Fixpoint string_end (q : quoted) (s : list Z) (n : Z) : found :=
  match s with
  | [] => Error ERROR_PART
  | c :: r =>
      match q with
      | Escape =>
          if isin c [34; 47; 92; 98; 102; 114; 110; 116] then string_end Plain r (n + 1)
          else if c =? 117 then string_end (Hex 4) r (n + 1)
          else Error ERROR_INVAL
      | Hex (S k) =>
          if c =? 0 then Error ERROR_PART
          else if is_xdigit (s8 c) then string_end (match k with O => Plain | _ => Hex k end) r (n + 1)
          else Error ERROR_INVAL
      | _ =>
          if c =? 0 then Error ERROR_PART
          else if c =? 34 then At n
          else if c =? 92 then string_end Escape r (n + 1)
          else string_end Plain r (n + 1)
      end
  end.
(** jsmn_parse_string, jsmn.c:84-149 *)
Definition parse_string (js : list Z) (num : Z) (p : parser) : Z * parser :=
  let start := pos p in
  match string_end Plain (zskip (start + 1) js) (start + 1) with
  | Error e => (e, p)
  | At e =>
      match toks p with
      | None => (0, at_pos p e)
      | Some ts =>
          match alloc_token num ts (T JSMN_STRING (start + 1) e 0 (toksuper p) None) with
          | None => (ERROR_NOMEM, p)
          | Some ts => (0, P e (toksuper p) (Some ts))
          end
      end
  end.

(** A token that was opened and not closed: start != -1 && end == -1. *)
Definition is_open (t : tok) : bool := negb (st t =? -1) && (en t =? -1).
(** The loop for a closing bracket at position [x], jsmn.c:192-208, from token [i] on: the new tokens and toksuper; [None]
    is JSMN_ERROR_INVAL. *)
Fixpoint close (fuel : nat) (ts : list tok) (type super x i : Z) : run (option (list tok * Z)) :=
  match fuel with
  | O => None
  | S k =>
      rbind (at_ ts i) (fun t =>
      if is_open t then
        if negb (ty t =? type) then rret None else
        rbind (put ts i (T (ty t) (st t) (x + 1) (sz t) (par t) (tot t))) (fun ts => rret (Some (ts, par t)))
      else if par t =? -1 then
        if negb (ty t =? type) || (super =? -1) then rret None else rret (Some (ts, super))
      else close k ts type super x (par t))
  end.

(** One turn of the loop of jsmn_parse, jsmn.c:160-289, without the increment of pos at its end: it goes on or the function returns. *)
Inductive turn := Go (p : parser) (count : Z) | Return (r : Z) (p : parser).
Definition one (fuel : nat) (js : list Z) (num : Z) (p : parser) (count c : Z) : run turn :=
  if isin c [123; 91] then
    match toks p with
    | None => rret (Go p (count + 1))
    | Some ts =>
        match alloc_token num ts (T (if c =? 123 then JSMN_OBJECT else JSMN_ARRAY) (pos p) (-1) 0 (toksuper p) None) with
        | None => rret (Return ERROR_NOMEM p)
        | Some ts =>
            rbind (grow_super (P (pos p) (toksuper p) (Some ts))) (fun p => rret (Go (P (pos p) (toknext p - 1) (toks p)) (count + 1)))
        end
    end
  else if isin c [125; 93] then
    match toks p with
    | None => rret (Go p count)
    | Some ts =>
        if toknext p <? 1 then rret (Return ERROR_INVAL p) else
        rbind (close fuel ts (if c =? 125 then JSMN_OBJECT else JSMN_ARRAY) (toksuper p) (pos p) (toknext p - 1)) (fun r =>
        match r with
        | None => rret (Return ERROR_INVAL p)
        | Some (ts, super) => rret (Go (P (pos p) super (Some ts)) count)
        end)
    end
  else if c =? 34 then
    let '(r, p) := parse_string js num p in
    if r <? 0 then rret (Return r p) else rbind (grow_super p) (fun p => rret (Go p (count + 1)))
  else if isin c [9; 13; 10; 32] then rret (Go p count)
  else if c =? 58 then rret (Go (P (pos p) (toknext p - 1) (toks p)) count)
  else if c =? 44 then
    match toks p with
    | None => rret (Go p count)
    | Some ts =>
        if toksuper p =? -1 then rret (Go p count) else
        rbind (at_ ts (toksuper p)) (fun t =>
        if isin (ty t) [JSMN_ARRAY; JSMN_OBJECT] then rret (Go p count) else rret (Go (P (pos p) (par t) (Some ts)) count))
    end
  else
    let '(r, p) := parse_primitive js num p in
    if r <? 0 then rret (Return r p) else rbind (grow_super p) (fun p => rret (Go p (count + 1))).
(** jsmn.c:291-302 *)
Definition finish (p : parser) (count : Z) : Z :=
  match toks p with
  | Some ts => if existsb is_open ts then ERROR_PART else count
  | None => count
  end.
Fixpoint parse_loop (fuel : nat) (js : list Z) (num : Z) (p : parser) (count : Z) : run (Z * parser) :=
  match fuel with
  | O => None
  | S k =>
      match zskip (pos p) js with
      | [] => rret (finish p count, p)
      | c :: _ =>
          if c =? 0 then rret (finish p count, p) else
          rbind (one (S k) js num p count c) (fun t =>
          match t with
          | Return r p => rret (r, p)
          | Go p count => parse_loop k js num (at_pos p (pos p + 1)) count
          end)
      end
  end.
(** jsmn_init and jsmn_parse, jsmn.c:151-158, 309-313; [array]: with a token array.  Texts of 2^31 bytes and more, whose positions
    do not fit the tokens' ints, are not modelled. *)
Definition jsmn_parse (fuel : nat) (js : list Z) (array : bool) (num : Z) : run (Z * parser) :=
  if INT_MAX <? zlen js then rub else parse_loop fuel js num (P 0 (-1) (if array then Some [] else None)) 0.

(** ** The JSON source *)

(** jsmn_prepare_total_size, src/bin_json_plugin.cpp:16-44: [k] calls in a row, each on the token behind the subtree of the last. *)
Fixpoint total_loop (k : nat) (call : list tok -> Z -> run (Z * list tok)) (ts : list tok) (idx total : Z) : run (Z * list tok) :=
  match k with
  | O => rret (total, ts)
  | S k => rbind (call ts (idx + total)) (fun r => total_loop k call (snd r) idx (total + fst r))
  end.
Definition set_total (ts : list tok) (idx n : Z) : run (Z * list tok) :=
  rbind (at_ ts idx) (fun t => rbind (put ts idx (T (ty t) (st t) (en t) (sz t) (par t) (Some n))) (fun ts => rret (n, ts))).
Fixpoint prepare_total_size (fuel : nat) (ts : list tok) (idx : Z) : run (Z * list tok) :=
  match fuel with
  | O => None
  | S f =>
      rbind (at_ ts idx) (fun t =>
      if isin (ty t) [JSMN_STRING; JSMN_PRIMITIVE] then set_total ts idx 1
      else if ty t =? JSMN_OBJECT then rbind (total_loop (Z.to_nat (2 * sz t)) (prepare_total_size f) ts idx 1) (fun r => set_total (snd r) idx (fst r))
      else if ty t =? JSMN_ARRAY then rbind (total_loop (Z.to_nat (sz t)) (prepare_total_size f) ts idx 1) (fun r => set_total (snd r) idx (fst r))
      else Some Fail)   (* _exit(1) *)
  end.

(** What Initialize leaves: the text, the tokens, the buffer of max_str_len + 5 bytes. *)
Record source := S_ { text : list Z; tokens : list tok; last_str : list Z }.
Definition is_scalar (t : tok) : bool := isin (ty t) [JSMN_STRING; JSMN_PRIMITIVE].
(** bin_json_plugin.cpp:156-162 *)
Definition max_str_len (ts : list tok) : Z :=
  fold_left (fun m t => if is_scalar t then (if m <? en t - st t then en t - st t else m) else m) ts 0.
(** Bin_json_plugin::Initialize, bin_json_plugin.cpp:88-167, on a file with the contents [js].  [None]: it returns false.  new
    with a negative count throws, which ends the program: [Ub].  The check of the types (129-143) never fails, because jsmn_parse sets
    them; the bytes of the new buffer are unspecified: [fill]. *)
Definition Initialize (fuel : nat) (js fill : list Z) : run (option source) :=
  if zlen js <=? 0 then rret None else
  rbind (jsmn_parse fuel js false 0) (fun r => let n0 := fst r in
  if n0 <? 0 then rub else
  rbind (jsmn_parse fuel js true n0) (fun r => let '(n1, p) := r in
  if negb (n0 =? n1) then rret None else
  match toks p with
  | None => rret None
  | Some ts =>
      rbind (prepare_total_size fuel ts 0) (fun r => let '(total, ts) := r in
      if negb (total =? n0) then rret None else
      let max := max_str_len ts in
      match wr (ztake (max + 5) fill) max [0] with
      | Ok b => rret (Some (S_ js ts b))
      | Fail => Some Fail
      | Ub => rub
      end)
  end)).

(** strncpy(dst + d, src, n): the text up to a NUL, padded with NULs. *)
Definition strncpy (m : list Z) (d : Z) (src : list Z) (n : Z) : outcome (list Z) :=
  let s := cstr (ztake n src) in wr m d (s ++ zrepeat 0 (n - zlen s)).
Definition byte_at (m : list Z) (p : Z) : outcome Z := obind (rd m p 1) (fun b => Ok (hd 0 b)).
(** The bytes of a token are copied to the buffer and terminated; with the asserts of getNodeName. *)
Definition copy_token (s : source) (t : tok) : outcome (list Z) :=
  if (0 <=? st t) && (en t <=? zlen (text s)) then
    let len := en t - st t in
    obind (strncpy (last_str s) 0 (zskip (st t) (text s)) len) (fun m => wr m len [0])
  else Ub.
Definition inside_file (s : source) (t : tok) : bool :=
  (0 <=? st t) && (st t <? zlen (text s)) && (0 <? en t) && (en t <=? zlen (text s)).
(** bin_json_plugin.cpp:196-225: the name of an item from the name of the array in the buffer. *)
Definition singular (m : list Z) (len : Z) : outcome (list Z) :=
  obind (byte_at m (len - 1)) (fun c =>
  if c =? 115 then wr m (len - 1) [0] else
  obind (if 4 <? len then rd m (len - 4) 4 else Ok []) (fun e =>
  if list_eq_dec Z.eq_dec e [76; 105; 115; 116] then wr m (len - 4) [0]
  else wr m len [73; 116; 101; 109; 0])).
(** A token by its index, as a pointer into the array. *)
Definition token (s : source) (i : Z) : outcome tok := if i <? 0 then Ub else match nth_error (tokens s) (Z.to_nat i) with Some t => Ok t | None => Ub end.
(** getNodeName, bin_json_plugin.cpp:174-235: the name ([None]: null) and the buffer. *)
Definition ARRAY_ITEM : list Z := lit "__ARRAY_ITEM_NAME__".
Definition in_buffer (m : list Z) (s : source) : outcome (option (list Z) * source) :=
  obind (rd_str m 0) (fun n => Ok (Some n, S_ (text s) (tokens s) m)).
Definition getNodeName (s : source) (i : Z) : outcome (option (list Z) * source) :=
  let n := zlen (tokens s) in
  obind (token s i) (fun X =>
  if (par X <? 0) || (n <=? par X) then Ok (None, s) else
  obind (token s (par X)) (fun P =>
  if ty P =? JSMN_ARRAY then
    if (par P <? 0) || (n <=? par P) then Ok (None, s) else
    obind (token s (par P)) (fun P2 =>
    if ty P2 =? JSMN_STRING then
      if negb (inside_file s P2) then Ub else
      obind (copy_token s P2) (fun m =>
      obind (singular m (en P2 - st P2)) (fun m => in_buffer m s))
    else Ok (Some ARRAY_ITEM, s))
  else if negb (ty P =? JSMN_OBJECT) then Ok (None, s)
  else if negb (ty X =? JSMN_STRING) then Ok (None, s)
  else if negb (inside_file s X) then Ub
  else obind (copy_token s X) (fun m => in_buffer m s))).

(** bin_json_plugin.cpp:248-253 and 264-269: a key stands for the value behind it. *)
Definition skip_one (s : source) (i : Z) : outcome Z :=
  obind (token s i) (fun X => match tot X with Some n => Ok (i + n) | None => Ub end).
Definition value_of (s : source) (i : Z) : outcome Z :=
  obind (token s i) (fun X =>
  if (0 <=? par X) && (par X <? zlen (tokens s)) then
    obind (token s (par X)) (fun P => if ty P =? JSMN_OBJECT then skip_one s i else Ok i)
  else Ok i).
(** getNodeValue, bin_json_plugin.cpp:237-257 *)
Definition getNodeValue (s : source) (i : Z) : outcome (option (list Z) * source) :=
  obind (value_of s i) (fun i =>
  obind (token s i) (fun X =>
  if negb (is_scalar X) then Ok (None, s) else
  obind (copy_token s X) (fun m => in_buffer m s))).
(** ForAllChildren, bin_json_plugin.cpp:259-293: the tokens given to the callback, in order.  The callback gets them one by one, so a
    pointer that leaves the array behind the last child is not read. *)
Fixpoint children_loop (k : nat) (object : bool) (s : source) (i : Z) : outcome (list Z) :=
  match k with
  | O => Ok []
  | S k =>
      obind (skip_one s i) (fun j =>
      obind (if object then skip_one s j else Ok j) (fun j =>
      obind (children_loop k object s j) (fun l => Ok (i :: l))))
  end.
Definition ForAllChildren (s : source) (i : Z) : outcome (list Z) :=
  obind (value_of s i) (fun i =>
  obind (token s i) (fun X =>
  if ty X =? JSMN_OBJECT then children_loop (Z.to_nat (sz X)) true s (i + 1)
  else if ty X =? JSMN_ARRAY then children_loop (Z.to_nat (sz X)) false s (i + 1)
  else Ok [])).
(** ForAllChildrenRecursively, bin_json_plugin.cpp:295-330: the elements and their depths, in the order of the calls. *)
Fixpoint kids_loop (k : nat) (object : bool) (call : Z -> run (list (Z * Z))) (s : source) (i : Z) : run (list (Z * Z)) :=
  match k with
  | O => rret []
  | S k =>
      rbind (call i) (fun l =>
      rbind (Some (skip_one s i)) (fun j =>
      rbind (Some (if object then skip_one s j else Ok j)) (fun j =>
      rbind (kids_loop k object call s j) (fun r => rret (l ++ r)))))
  end.
Fixpoint ForAllChildrenRecursively (fuel : nat) (s : source) (i deep : Z) : run (list (Z * Z)) :=
  match fuel with
  | O => None
  | S f =>
      rbind (Some (value_of s i)) (fun v =>
      rbind (Some (token s v)) (fun X =>
      rbind (if ty X =? JSMN_OBJECT then kids_loop (Z.to_nat (sz X)) true (fun i => ForAllChildrenRecursively f s i (deep + 1)) s (v + 1)
             else if ty X =? JSMN_ARRAY then kids_loop (Z.to_nat (sz X)) false (fun i => ForAllChildrenRecursively f s i (deep + 1)) s (v + 1)
             else rret []) (fun l => rret ((i, deep) :: l))))
  end.
