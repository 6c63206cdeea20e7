(** Model of the XBW pool, src/bin_write_plugin.cpp: space, elements and their lists.

    The memory [m] is the mapped file from the pool header on, as long as the file is (pages behind the end of the file
    are mapped, but touching them is SIGBUS: [Ub]).  A pointer is an offset from the header.  The header, bin_write_plugin.h:97-115:
    size 0, type_info 4, pool_format_version 28, file_size 32, mmap_size 36, reserved 40, root 44, master_xb_size 48, allocator 52,
    allocator_limit 56, tags 60, params 76 (max_id, names_offset, index, flags), 92 bytes.  Messages written by failed
    assertions (ASSERT_NO_..., which then return) are not modelled; assert() that aborts is [Ub].  Calls through a null
    [this] are not modelled. *)
From Verif Require Import Base Types Sort Symtab Xb XbWrite.

Definition XTNR_HASH_INDEX := -5.
Definition XPNR_NULL := -1.
Definition XPNR_ID := -8.
Definition XPNR_AUTHOR := -9.
Definition XPNR_TIME_MS := -10.

Definition HEADER := 92.
Definition p_file_size m := rd_s32 m 32.
Definition p_mmap_size m := rd_s32 m 36.
Definition p_root m := rd_s32 m 44.
Definition p_allocator m := rd_s32 m 52.
Definition p_limit m := rd_s32 m 56.
(** The two symbol tables. *)
Definition TAGS := 60.
Definition PARAMS := 76.
Definition t_max_id m t := rd_s32 m t.
Definition t_names m t := rd_s32 m (t + 4).
Definition t_index m t := rd_s32 m (t + 8).
Definition t_flags m t := obind (rd m (t + 12) 4) (fun b => Ok (unle b)).

(** Signed 32-bit arithmetic: overflow is undefined. *)
Definition int_ {A} (x : Z) (k : Z -> outcome A) : outcome A := if int32b x then k x else Ub.
Definition wr32 m p v := wr m p (le 4 v).

(** ** Space *)

(** BW_pool::allocate, src/bin_write_plugin.cpp:1630-1644; [None] is the null pointer. *)
Definition allocate m size : outcome (option Z * list Z) :=
  if size <=? 0 then Ok (None, m) else
  int_ (size + 3) (fun _ => let size := align_up 4 size in
  obind (p_allocator m) (fun a => obind (p_limit m) (fun limit =>
  int_ (a + size) (fun e =>
  if limit <? e then Ok (None, m) else
  obind (wr32 m 52 e) (fun m => obind (wr m a (zrepeat 0 size)) (fun m => Ok (Some a, m))))))).
(** BW_pool::allocate8, 1646-1661: the allocator is rounded even if the request then fails. *)
Definition allocate8 m size : outcome (option Z * list Z) :=
  if size <=? 0 then Ok (None, m) else
  obind (p_allocator m) (fun a => int_ (a + 7) (fun _ => let a := align_up 8 a in
  obind (wr32 m 52 a) (fun m =>
  int_ (size + 7) (fun _ => let size := align_up 8 size in
  obind (p_limit m) (fun limit =>
  int_ (a + size) (fun e =>
  if limit <? e then Ok (None, m) else
  obind (wr32 m 52 e) (fun m => obind (wr m a (zrepeat 0 size)) (fun m => Ok (Some a, m))))))))).
(** ftruncate to a length: cut, or fill up with zeros. *)
Definition resize m n : list Z := ztake n m ++ zrepeat 0 (n - zlen m).
(** BW_plugin::makeSpace, 1988-2003; [disk] tells if ftruncate succeeds. *)
Definition makeSpace (disk : bool) m size : outcome (bool * list Z) :=
  obind (p_allocator m) (fun a => int_ (a + 4095) (fun s => int_ (s + size) (fun s =>
  let new_size := s / 4096 * 4096 in
  obind (p_mmap_size m) (fun mmap => if mmap <? new_size then Ok (false, m) else
  obind (p_file_size m) (fun fs => if new_size <=? fs then Ok (true, m) else
  if negb disk then Ok (false, m) else
  let m := resize m new_size in
  obind (wr32 m 32 new_size) (fun m => obind (wr32 m 56 new_size) (fun m => Ok (true, m)))))))).

(** BW_pool::new_element, 1663-1690.  The plugin of the pool is taken to be found (see the registry in BwRegistry). *)
Definition new_element (disk : bool) m type size : outcome (option Z * list Z) :=
  obind (XBT_Size2 type size) (fun size2 =>
  if size2 <? 0 then Ok (None, m) else
  int_ (24 + size2) (fun n =>
  let get m := if XBT_Align type =? 8 then allocate8 m n else allocate m n in
  obind (get m) (fun '(x, m) =>
  obind (match x with
         | Some x => Ok (Some x, m)
         | None => obind (makeSpace disk m n) (fun '(ok, m) => if ok then get m else Ok (None, m))
         end) (fun '(x, m) =>
  match x with
  | None => Ok (None, m)
  | Some x =>
      obind (wr m (x + 7) [type]) (fun m => obind (wr32 m x x) (fun m => obind (wr32 m (x + 8) x) (fun m => obind (wr32 m (x + 12) x) (fun m =>
      obind (if XBT_IS_VARSIZE type then wr32 m (x + 24) (size2 - 4) else Ok m) (fun m => Ok (Some x, m))))))
  end)))).

(** ** Elements, bin_write_plugin.h:150-172 *)
Definition el_offset m x := rd_s32 m x.
Definition el_id m x := rd_s16 m (x + 4).
Definition el_flags m x := rd_u8 m (x + 6).
Definition el_type m x := rd_u8 m (x + 7).
Definition el_next m x := rd_s32 m (x + 8).
Definition el_prev m x := rd_s32 m (x + 12).
Definition el_child m x := rd_s32 m (x + 16).
Definition el_attr m x := rd_s32 m (x + 20).
(** BW_element::BWE, 93-96: through the offset stored in the element. *)
Definition bwe m x o : outcome Z := obind (el_offset m x) (fun b => Ok (x - b + o)).
Definition ELEMENT := 1.
Definition ATTR := 0.
Definition BIN_DELETED := 8.
Definition is_element f : bool := Z.odd f.

(** BW_element::init, 57-86: eight stores, here one. *)
Definition init m x id type flags : outcome (list Z) :=
  obind (rd m 32 4) (fun b => if (0 <? x) && (x + 24 <=? unle b) then
    wr m x (le 4 x ++ le 2 id ++ [flags; type] ++ le 4 x ++ le 4 x ++ le 4 0 ++ le 4 0)
  else Ub).

(** What a changing operation did: the states after each of its stores.  [false]: it returned NULL. *)
Definition effect := outcome (bool * list (list Z)).
Definition final m (tr : list (list Z)) := last tr m.

Notation "x <- a ;; b" := (obind a (fun x => b)) (at level 61, a at next level, right associativity).

(** BW_element::join, 103-128 *)
Definition join m x b : effect :=
  ap <- el_prev m x ;; bp <- el_prev m b ;; ox <- el_offset m x ;; ob <- el_offset m b ;;
  if (ap =? 0) || (bp =? 0) || (ox =? 0) || (ob =? 0) then Ok (false, []) else
  m1 <- wr32 m (x + 12) bp ;;
  m2 <- wr32 m1 (b + 12) ap ;;
  p <- bwe m2 x bp ;; ox <- el_offset m2 x ;; m3 <- wr32 m2 (p + 8) ox ;;
  p <- bwe m3 x ap ;; ob <- el_offset m3 b ;; m4 <- wr32 m3 (p + 8) ob ;;
  Ok (true, [m1; m2; m3; m4]).

(** The list of [x] that an element with these flags belongs to. *)
Definition list_field x f := if is_element f then x + 16 else x + 20.

(** BW_element::add, 130-141 *)
Definition add m x t : effect :=
  obind (el_flags m t) (fun f => let l := list_field x f in
  obind (rd_s32 m l) (fun first =>
  if first =? 0 then obind (el_offset m t) (fun o => obind (wr32 m l o) (fun m1 => Ok (true, [m1])))
  else obind (bwe m x first) (fun a => obind (join m a t) (fun '(_, tr) => Ok (true, tr))))).

(** BW_element::remove, 143-162 *)
Definition remove m x t : effect :=
  f <- el_flags m t ;; let l := list_field x f in
  first <- rd_s32 m l ;;
  if first =? 0 then Ok (true, []) else
  o <- el_offset m t ;;
  tr <- (if first =? o then
           n <- el_next m t ;; p <- el_prev m t ;; m1 <- wr32 m l (if (n =? o) && (p =? o) then 0 else n) ;; Ok [m1]
         else Ok []) ;;
  let m1 := final m tr in
  p <- el_prev m1 t ;; n <- el_next m1 t ;; a <- bwe m1 x p ;; m2 <- wr32 m1 (a + 8) n ;;
  n <- el_next m2 t ;; p <- el_prev m2 t ;; a <- bwe m2 x n ;; m3 <- wr32 m2 (a + 12) p ;;
  o <- el_offset m3 t ;; m4 <- wr32 m3 (t + 12) o ;;
  m5 <- wr32 m4 (t + 8) o ;;
  f <- el_flags m5 t ;; m6 <- wr m5 (t + 6) [Z.lor f BIN_DELETED] ;;
  Ok (true, tr ++ [m2; m3; m4; m5; m6]).

(** BW_element::replace, 164-188 *)
Definition replace m x old new : effect :=
  nn <- el_next m new ;; np <- el_prev m new ;; no <- el_offset m new ;; oo <- el_offset m old ;;
  if negb (nn =? no) || negb (np =? no) || negb (new - no =? old - oo) then Ok (false, []) else
  n <- el_next m old ;; m1 <- wr32 m (new + 8) n ;;
  p <- el_prev m1 old ;; m2 <- wr32 m1 (new + 12) p ;;
  n <- el_next m2 new ;; a <- bwe m2 x n ;; no <- el_offset m2 new ;; m3 <- wr32 m2 (a + 12) no ;;
  p <- el_prev m3 new ;; a <- bwe m3 x p ;; no <- el_offset m3 new ;; m4 <- wr32 m3 (a + 8) no ;;
  f <- el_flags m4 old ;; m5 <- wr m4 (old + 6) [Z.lor f BIN_DELETED] ;;
  oo <- el_offset m5 old ;; m6 <- wr32 m5 (old + 12) oo ;;
  m7 <- wr32 m6 (old + 8) oo ;;
  fc <- el_child m7 x ;; oo <- el_offset m7 old ;;
  tr <- (if fc =? oo then no <- el_offset m7 new ;; m8 <- wr32 m7 (x + 16) no ;; Ok [m8] else Ok []) ;;
  let m8 := final m7 tr in
  fa <- el_attr m8 x ;; oo <- el_offset m8 old ;;
  tr' <- (if fa =? oo then no <- el_offset m8 new ;; m9 <- wr32 m8 (x + 20) no ;; Ok [m9] else Ok []) ;;
  Ok (true, [m1; m2; m3; m4; m5; m6; m7] ++ tr ++ tr').

(** BW_element::NextChild, 689-707: the element and the new [offset]. *)
Definition NextChild m x offset : outcome (option (Z * Z)) :=
  if offset =? 0 then
    obind (el_child m x) (fun fc => if fc =? 0 then Ok None else
    obind (el_child m x) (fun fc => obind (bwe m x fc) (fun e => Ok (Some (e, fc)))))
  else
    obind (bwe m x offset) (fun prev => obind (el_next m prev) (fun n => obind (el_child m x) (fun fc =>
    if n =? fc then Ok None else obind (el_next m prev) (fun n => obind (bwe m x n) (fun e => Ok (Some (e, n))))))).
(** BW_element::PrevChild, 709-723 *)
Definition PrevChild m x offset : outcome (option (Z * Z)) :=
  if offset =? 0 then
    obind (el_child m x) (fun fc => if fc =? 0 then Ok None else
    obind (bwe m x fc) (fun first => obind (el_prev m first) (fun p => obind (bwe m x p) (fun e => Ok (Some (e, p))))))
  else
    obind (el_child m x) (fun fc => if offset =? fc then Ok None else
    obind (bwe m x offset) (fun el => obind (el_prev m el) (fun p => obind (bwe m x p) (fun e => Ok (Some (e, p)))))).
(** BW_FOREACH2 and BW_FOREACH2_REV, bin_write_plugin.h:237-238 *)
Definition foreach (step : list Z -> Z -> Z -> outcome (option (Z * Z))) :=
  fix go (fuel : nat) m x offset : run (list Z) :=
    match fuel with
    | O => None
    | S k => rbind (Some (step m x offset)) (fun r => match r with
        | None => rret []
        | Some (e, offset) => rbind (go k m x offset) (fun l => rret (e :: l))
        end)
    end.
Definition forward := foreach NextChild.
Definition backward := foreach PrevChild.

(** The same iteration while somebody else stores: read number [i] sees the memory [s i].  NextChild reads at most five times; a call
    is given the reads from [k] on. *)
Definition NextChild_c (s : nat -> list Z) (k : nat) x offset : outcome (option (Z * Z)) :=
  if offset =? 0 then
    fc <- el_child (s k) x ;; if fc =? 0 then Ok None else
    fc <- el_child (s (1 + k)%nat) x ;; e <- bwe (s (2 + k)%nat) x fc ;; Ok (Some (e, fc))
  else
    prev <- bwe (s k) x offset ;; n <- el_next (s (1 + k)%nat) prev ;; fc <- el_child (s (2 + k)%nat) x ;;
    if n =? fc then Ok None else n <- el_next (s (3 + k)%nat) prev ;; e <- bwe (s (4 + k)%nat) x n ;; Ok (Some (e, n)).
Fixpoint forward_c (fuel : nat) (s : nat -> list Z) (k : nat) x offset : run (list Z) :=
  match fuel with
  | O => None
  | S f => rbind (Some (NextChild_c s k x offset)) (fun r => match r with
      | None => rret []
      | Some (e, offset) => rbind (forward_c f s (5 + k)%nat x offset) (fun l => rret (e :: l))
      end)
  end.

(** The loop of tagGet, attrGet, findChildByTag and findAttr, 727-741, 673-687, 1065-1083, 1124-1141: from [a] on, to the first
    element [id]; [field] is the head of the list in [x], read again in each round. *)
Fixpoint find_el (fuel : nat) m x field id a : run (option Z) :=
  match fuel with
  | O => None
  | S k => rbind (Some (el_id m a)) (fun i => if i =? id then rret (Some a) else
      rbind (Some (el_next m a)) (fun n => rbind (Some (rd_s32 m field)) (fun first => if n =? first then rret None else
      rbind (Some (bwe m x n)) (fun a => find_el k m x field id a))))
  end.
Definition get_el (fuel : nat) m x field id : run (option Z) :=
  rbind (Some (rd_s32 m field)) (fun first => if first =? 0 then rret None else rbind (Some (bwe m x first)) (fun a => find_el fuel m x field id a)).
Definition tagGet fuel m x id := get_el fuel m x (x + 16) id.
Definition attrGet fuel m x id := get_el fuel m x (x + 20) id.

(** BW_plugin::setRoot, 2252-2275: only as long as there is no root. *)
Definition setRoot m x : outcome (list Z) :=
  obind (p_root m) (fun r => if negb (r =? 0) then Ok m else
  obind (el_offset m x) (fun o => obind (p_allocator m) (fun a => if (0 <=? o) && (o <? a) then wr32 m 44 o else Ok m))).

(** ** Types of names *)

(** BW_pool::getTagType, 1457-1488 *)
Definition getTagType m id : outcome Z :=
  obind (t_index m TAGS) (fun index => if index =? 0 then Ok XBT_UNKNOWN else
  obind (t_max_id m TAGS) (fun max_id =>
  if (0 <=? id) && (id <=? max_id) then
    obind (rd_s32 m (index + 4 * id)) (fun o => if o =? 0 then Ok XBT_UNKNOWN else rd_u8 m (o + 2))
  else if isin id [XTNR_META_ROOT; XTNR_PAYLOAD; XTNR_ET_TECERA] then Ok XBT_NULL
  else if isin id [XTNR_TAG_SYMBOLS; XTNR_PARAM_SYMBOLS] then Ok XBT_BLOB
  else Ok XBT_UNKNOWN)).
(** BW_pool::getAttrType, 1504-1532 *)
Definition getAttrType m id : outcome Z :=
  obind (t_index m PARAMS) (fun index => if index =? 0 then Ok XBT_UNKNOWN else
  if id =? XPNR_NULL then Ok XBT_NULL else if id =? XPNR_NAME then Ok XBT_STRING else if id =? XPNR_HASH then Ok XBT_SHA1
  else if id =? XPNR_MODIFIED then Ok XBT_UNIX_TIME
  else if isin id [XPNR_COUNT; XPNR_FORMAT_VERSION; XPNR_TYPE_COUNT; XPNR_ID] then Ok XBT_INT32
  else if id =? XPNR_AUTHOR then Ok XBT_INT64 else if id =? XPNR_TIME_MS then Ok XBT_UNIX_TIME64_MSEC
  else obind (t_max_id m PARAMS) (fun max_id =>
  if (0 <=? id) && (id <=? max_id) then
    obind (rd_s32 m (index + 4 * id)) (fun o => if o =? 0 then Ok XBT_UNKNOWN else rd_u8 m (o + 2))
  else Ok XBT_UNKNOWN)).
(** BW_element::getSymbolType, bin_write_plugin.h:180; the pool is where the offset stored in the element says: elsewhere than at 0
    is [Ub]. *)
Definition getSymbolType m x : outcome Z :=
  obind (el_offset m x) (fun o => if negb (o =? x) then Ub else
  obind (el_flags m x) (fun f => obind (el_id m x) (fun id => if is_element f then getTagType m id else getAttrType m id))).

(** ** New elements with a value; [None] is NULL *)

(** new_element and init *)
Definition fresh (disk : bool) m id type size flags : outcome (option Z * list Z) :=
  obind (new_element disk m type size) (fun '(x, m) => match x with
  | None => Ok (None, m)
  | Some x => obind (init m x id type flags) (fun m => Ok (Some x, m))
  end).
(** The same with bytes stored behind it *)
Definition fresh_with (disk : bool) m id type size flags bs : outcome (option Z * list Z) :=
  obind (fresh disk m id type size flags) (fun '(x, m) => match x with
  | None => Ok (None, m)
  | Some x => obind (wr m (x + 24) bs) (fun m => Ok (Some x, m))
  end).
(** BW_pool::tag, 1706-1714 *)
Definition pool_tag disk m id : outcome (option Z * list Z) :=
  obind (getTagType m id) (fun ty => if negb (ty =? XBT_NULL) then Ok (None, m) else fresh disk m id XBT_NULL 0 ELEMENT).
(** BW_pool::tagInt32, 1716-1727 *)
Definition pool_tagInt32 disk m id value : outcome (option Z * list Z) :=
  obind (getTagType m id) (fun ty => if negb (XBT_IS_4 ty) then Ok (None, m) else fresh_with disk m id ty 0 ELEMENT (le 4 value)).
(** BW_pool::tagInt64, 1729-1740 *)
Definition pool_tagInt64 disk m id value : outcome (option Z * list Z) :=
  obind (getTagType m id) (fun ty => if negb (XBT_IS_8 ty) then Ok (None, m) else fresh_with disk m id ty 8 ELEMENT (le 8 value)).
(** BW_pool::tagString, 1742-1754; a null value is handed to strcpy and is not modelled. *)
Definition pool_tagString disk m id value : outcome (option Z * list Z) :=
  obind (getTagType m id) (fun ty => if negb (ty =? XBT_STRING) then Ok (None, m) else fresh_with disk m id XBT_STRING (zlen value + 1) ELEMENT (value ++ [0])).
(** BW_pool::tagTime, 1756-1767 *)
Definition pool_tagTime disk m id value : outcome (option Z * list Z) :=
  obind (getTagType m id) (fun ty => if negb (ty =? XBT_UNIX_TIME) then Ok (None, m) else fresh_with disk m id XBT_UNIX_TIME 0 ELEMENT (le 4 value)).
(** BW_pool::tagSHA1, 1769-1780 *)
Definition pool_tagSHA1 disk m id value : outcome (option Z * list Z) :=
  obind (getTagType m id) (fun ty => if negb (ty =? XBT_SHA1) then Ok (None, m) else fresh_with disk m id XBT_SHA1 0 ELEMENT value).

(** ** Getters; a pointer is delivered as the value behind it, [None] is NULL *)
(** getInt32, 899-912 *)
Definition bw_getInt32 m x : outcome (option Z) :=
  obind (getSymbolType m x) (fun ty => if XBT_IS_4 ty then obind (rd_s32 m (x + 24)) (fun v => Ok (Some v)) else Ok None).
(** getInt64, 944-961 *)
Definition bw_getInt64 m x : outcome (option Z) :=
  obind (getSymbolType m x) (fun ty => obind (el_type m x) (fun vt =>
  if (ty =? XBT_INT64) || (vt =? XBT_INT64) || (vt =? XBT_UNIX_TIME64_MSEC) then obind (rd m (x + 24) 8) (fun b => Ok (Some (s64 (unle b)))) else Ok None)).
(** getTime, 930-942: a pointer to time_t, eight bytes *)
Definition bw_getTime m x : outcome (option Z) :=
  obind (getSymbolType m x) (fun ty => if ty =? XBT_UNIX_TIME then obind (rd m (x + 24) 8) (fun b => Ok (Some (s64 (unle b)))) else Ok None).
(** getStr, 993-999 *)
Definition bw_getStr m x : outcome (option (list Z)) :=
  obind (el_type m x) (fun vt => if vt =? XBT_STRING then obind (rd_str m (x + 24)) (fun s => Ok (Some s))
  else if vt =? XBT_BLOB_STRING then obind (rd_str m (x + 28)) (fun s => Ok (Some s)) else Ok None).

(** ** Setting a child, 768-874; the result is the returned element ([None]: NULL) and the memory *)
Definition add_new x (r : option Z * list Z) : outcome (option Z * list Z) :=
  let '(t, m) := r in
  match t with None => Ok (None, m) | Some t => obind (add m x t) (fun '(_, tr) => Ok (Some t, final m tr)) end.
(** replace(target, new_item): a null new item is dereferenced. *)
Definition replace_by x target (r : option Z * list Z) : outcome (option Z * list Z) :=
  let '(t, m) := r in
  match t with None => Ub | Some t => obind (replace m x target t) (fun '(_, tr) => Ok (Some target, final m tr)) end.
Definition tagSetInt32 fuel disk m x id value : run (option Z * list Z) :=
  rbind (tagGet fuel m x id) (fun t => Some (match t with
  | None => obind (pool_tagInt32 disk m id value) (add_new x)
  | Some t => obind (el_type m t) (fun ty => if ty =? XBT_INT32 then obind (wr32 m (t + 24) value) (fun m => Ok (Some t, m))
      else obind (pool_tagInt32 disk m id value) (replace_by x t))
  end)).
Definition tagSetInt64 fuel disk m x id value : run (option Z * list Z) :=
  rbind (tagGet fuel m x id) (fun t => Some (match t with
  | None => obind (pool_tagInt64 disk m id value) (add_new x)
  | Some t => obind (el_type m t) (fun ty => if ty =? XBT_INT64 then obind (wr m (t + 24) (le 8 value)) (fun m => Ok (Some t, m))
      else obind (pool_tagInt64 disk m id value) (replace_by x t))
  end)).
Definition tagSetString fuel disk m x id value : run (option Z * list Z) :=
  rbind (tagGet fuel m x id) (fun t => Some (match t with
  | None => obind (pool_tagString disk m id value) (add_new x)
  | Some t => obind (el_type m t) (fun ty =>
      obind (if ty =? XBT_STRING then obind (rd_str m (t + 24)) (fun old => Ok ((zlen value + 1 + 3) / 4 <=? (zlen old + 1 + 3) / 4)) else Ok false) (fun fits =>
      if fits then obind (wr m (t + 24) (value ++ [0])) (fun m => Ok (Some t, m))
      else obind (pool_tagString disk m id value) (replace_by x t)))
  end)).
Definition tagSetTime fuel disk m x id value : run (option Z * list Z) :=
  rbind (tagGet fuel m x id) (fun t => Some (match t with
  | Some t => obind (wr m (t + 24) (le 8 value)) (fun m => Ok (Some t, m))
  | None => obind (pool_tagTime disk m id value) (add_new x)
  end)).
(** tagGetInt32 and tagGetStr, 743-755 *)
Definition tagGetInt32 fuel m x id : run (option Z) := rbind (tagGet fuel m x id) (fun t => match t with None => rret None | Some t => Some (bw_getInt32 m t) end).
Definition tagGetStr fuel m x id : run (option (list Z)) := rbind (tagGet fuel m x id) (fun t => match t with None => rret None | Some t => Some (bw_getStr m t) end).
