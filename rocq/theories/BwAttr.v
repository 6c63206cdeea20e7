(** Model of adding attributes to elements of an XBW pool, src/bin_write_plugin.cpp:223-621, and of reading them, 914-1025, 1124-1148.

    Every function asks for the type of the attribute's name, refuses other types, makes an element, stores the value behind it and adds it to
    the list of attributes.  The not implemented ones (attrHexStr, attrIPv4, attrIPv6, and all for XBT_VARIANT) return NULL before they do anything
    and are left out. *)
From Verif Require Import Base Types Sort Xb XbWrite Bw.

(** The pool is where the offset stored in the element says: elsewhere than at 0 is [Ub].  [wanted]: the check of the type; [size]: the argument of
    new_element; the value [bs] goes [off] bytes behind the begin of the new element. *)
Definition attr_ disk m x id (wanted : Z -> bool) size off bs : outcome (option Z * list Z) :=
  obind (el_offset m x) (fun o => if negb (o =? x) then Ub else
  obind (getAttrType m id) (fun ty => if negb (wanted ty) then Ok (None, m) else
  obind (fresh disk m id ty size ATTR) (fun '(a, m) => match a with
  | None => Ok (None, m)
  | Some a => obind (wr m (a + off) bs) (fun m => obind (add m x a) (fun '(_, tr) => Ok (Some x, final m tr)))
  end))).
(** attrNull, 223-244 *)
Definition attrNull disk m x id := attr_ disk m x id (fun ty => ty =? XBT_NULL) 0 24 [].
(** attrStr, 246-274; [None]: a null pointer *)
Definition attrStr disk m x id (value : option (list Z)) : outcome (option Z * list Z) :=
  match value with None => Ok (Some x, m) | Some v => attr_ disk m x id (fun ty => ty =? XBT_STRING) (zlen v) 24 (v ++ [0]) end.
(** attrStr2, 276-306: the bytes between two pointers; strncpy stops at a NUL and fills up with NULs. *)
Definition attrStr2 disk m x id (v : list Z) :=
  attr_ disk m x id (fun ty => ty =? XBT_STRING) (zlen v) 24 (cstr v ++ zrepeat 0 (zlen v - zlen (cstr v)) ++ [0]).
(** attrBLOB, attrHEX, 316-376; [None]: a null pointer, with the size *)
Definition attrVar type disk m x id (v : list Z + Z) :=
  let '(n, bs) := match v with inl v => (zlen v, v) | inr n => (n, zrepeat 0 n) end in attr_ disk m x id (fun ty => ty =? type) n 28 bs.
Definition attrBLOB := attrVar XBT_BLOB.
Definition attrHEX := attrVar XBT_HEX.
(** attrInt32, attrUInt32, 379-423; attrFloat, 474-492, for the four bytes of the number *)
Definition attrInt32 disk m x id v := attr_ disk m x id (fun ty => ty =? XBT_INT32) 0 24 (le 4 v).
Definition attrUInt32 disk m x id v := attr_ disk m x id (fun ty => ty =? XBT_UINT32) 0 24 (le 4 v).
Definition attrFloat disk m x id bits := attr_ disk m x id (fun ty => ty =? XBT_FLOAT) 0 24 (le 4 bits).
(** attrInt64, 425-448: any type of eight bytes; attrUInt64, 450-472; attrDouble, 494-512; attrTime64, 581-607 *)
Definition attrInt64 disk m x id v := attr_ disk m x id XBT_IS_8 0 24 (le 8 v).
Definition attrUInt64 disk m x id v := attr_ disk m x id (fun ty => ty =? XBT_UINT64) 0 24 (le 8 v).
Definition attrDouble disk m x id bits := attr_ disk m x id (fun ty => ty =? XBT_DOUBLE) 0 24 (le 8 bits).
Definition attrTime64 disk m x id v := attr_ disk m x id (fun ty => ty =? XBT_UNIX_TIME64_MSEC) 0 24 (le 8 v).
(** attrTime, 554-579 *)
Definition attrTime disk m x id v := attr_ disk m x id (fun ty => ty =? XBT_UNIX_TIME) 0 24 (le 4 v).
(** attrGUID and attrSHA1, 514-552: as many bytes as XBT_Size2 says are copied from [value], the memory behind the pointer.  They are read after the
    checks; a value that is too short is [Ub] here even if a check fails. *)
Definition attrFixed type disk m x id (value : list Z) :=
  obind (XBT_Size2 type 0) (fun n => obind (rd value 0 n) (fun bs => attr_ disk m x id (fun ty => ty =? type) 0 24 bs)).
Definition attrGUID := attrFixed XBT_GUID.
Definition attrSHA1 := attrFixed XBT_SHA1.

(** ** Getters, as in Bw.v *)
(** findAttr, 1124-1141, is the same loop as attrGet; findAttrInt32, 1143-1148 *)
Definition findAttrInt32 fuel m x id : run (option Z) := rbind (attrGet fuel m x id) (fun a => match a with None => rret None | Some a => Some (bw_getInt32 m a) end).
(** getFloat, 914-927; getUInt64, 963-976; getGUID, 978-991: the bytes at the pointer *)
Definition bw_get type n m x : outcome (option (list Z)) :=
  obind (getSymbolType m x) (fun ty => if ty =? type then obind (rd m (x + 24) n) (fun b => Ok (Some b)) else Ok None).
Definition bw_getFloat := bw_get XBT_FLOAT 4.
Definition bw_getUInt64 := bw_get XBT_UINT64 8.
Definition bw_getGUID := bw_get XBT_GUID 16.
(** BW_element::getData, 1001-1025: type, data, content; a negative size is handed on, here [Fail] *)
Definition bw_getData m x : outcome (Z * list Z * list Z) :=
  obind (el_type m x) (fun ty =>
  if ty =? XBT_STRING then obind (rd_str m (x + 24)) (fun s => Ok (ty, s ++ [0], s ++ [0]))
  else if XBT_IS_4 ty then obind (rd m (x + 24) 4) (fun b => Ok (ty, b, b))
  else if XBT_IS_VARSIZE ty then obind (rd_s32 m (x + 24)) (fun n => obind (rd m (x + 24) (4 + n)) (fun d => obind (rd m (x + 28) n) (fun c => Ok (ty, d, c))))
  else if XBT_FIXEDSIZE ty <? 0 then Fail else obind (rd m (x + 24) (XBT_FIXEDSIZE ty)) (fun b => Ok (ty, b, b))).
