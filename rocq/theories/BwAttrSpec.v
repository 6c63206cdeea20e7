(** What adding an attribute should do. *)
From Verif Require Import Base Types Sort Xb XbWrite Bw BwSpec BwHist BwSym BwNamesSpec BwLifeSpec BwAttr.

(** The calls, with their values: the bytes that make up the value, as getData delivers its content. *)
Inductive attr_call :=
| CNull | CStr (v : list Z) | CStr2 (v : list Z) | CBlob (v : list Z) | CBlobZero (n : Z) | CHex (v : list Z) | CHexZero (n : Z)
| CInt32 (v : Z) | CUInt32 (v : Z) | CFloat (bits : Z) | CInt64 (v : Z) | CUInt64 (v : Z) | CDouble (bits : Z) | CTime (v : Z) | CTime64 (v : Z)
| CGuid (v : list Z) | CSha1 (v : list Z).
Definition attr_run (c : attr_call) disk m x id : outcome (option Z * list Z) :=
  match c with
  | CNull => attrNull disk m x id | CStr v => attrStr disk m x id (Some v) | CStr2 v => attrStr2 disk m x id v
  | CBlob v => attrBLOB disk m x id (inl v) | CBlobZero n => attrBLOB disk m x id (inr n) | CHex v => attrHEX disk m x id (inl v) | CHexZero n => attrHEX disk m x id (inr n)
  | CInt32 v => attrInt32 disk m x id v | CUInt32 v => attrUInt32 disk m x id v | CFloat v => attrFloat disk m x id v
  | CInt64 v => attrInt64 disk m x id v | CUInt64 v => attrUInt64 disk m x id v | CDouble v => attrDouble disk m x id v | CTime v => attrTime disk m x id v
  | CTime64 v => attrTime64 disk m x id v | CGuid v => attrGUID disk m x id v | CSha1 v => attrSHA1 disk m x id v
  end.
(** The types of the names it may be used for *)
Definition attr_types (c : attr_call) : list Z :=
  match c with
  | CNull => [XBT_NULL] | CStr _ | CStr2 _ => [XBT_STRING] | CBlob _ | CBlobZero _ => [XBT_BLOB] | CHex _ | CHexZero _ => [XBT_HEX]
  | CInt32 _ => [XBT_INT32] | CUInt32 _ => [XBT_UINT32] | CFloat _ => [XBT_FLOAT] | CInt64 _ => [XBT_INT64; XBT_DOUBLE; XBT_UNIX_TIME64_MSEC; XBT_UINT64]
  | CUInt64 _ => [XBT_UINT64] | CDouble _ => [XBT_DOUBLE] | CTime _ => [XBT_UNIX_TIME] | CTime64 _ => [XBT_UNIX_TIME64_MSEC] | CGuid _ => [XBT_GUID] | CSha1 _ => [XBT_SHA1]
  end.
(** A string ends at its first NUL. *)
Definition attr_value (c : attr_call) : list Z :=
  match c with
  | CNull => [] | CStr v | CStr2 v => cstr v ++ [0] | CBlob v | CHex v => v | CBlobZero n | CHexZero n => zrepeat 0 n
  | CInt32 v | CUInt32 v | CFloat v | CTime v => le 4 v | CInt64 v | CUInt64 v | CDouble v | CTime64 v => le 8 v
  | CGuid v => ztake 16 v | CSha1 v => ztake 20 v
  end.
(** The arguments are what C passes: strings of bytes, texts without NULs, sizes that are not negative.  A SHA-1 sum is
    read with the four bytes behind it. *)
Definition attr_args (c : attr_call) : Prop :=
  match c with
  | CStr v => cstring v | CStr2 v | CBlob v | CHex v => bytes v /\ zlen v <= INT_MAX - 4 | CBlobZero n | CHexZero n => 0 <= n <= INT_MAX - 4 | CGuid v => bytes v /\ 16 <= zlen v | CSha1 v => bytes v /\ 24 <= zlen v
  | _ => True
  end.

(** [n] is the new last attribute of [p]; all other elements, attributes and lists are as before. *)
Definition attr_done (k : Z -> bool) (s : Z -> Z) m T P F p A id (n : Z) m' : Prop :=
  exists k' s' F', life k' s' m' T P F' /\ (forall e, In e (members F) -> k' e = k e /\ s' e = s e) /\ owned F' p false (A ++ [n]) /\
  ~ In n (members F) /\ k' n = false /\ el_id m' n = Ok id /\
  (forall e, In e (members F) -> same_data s m m' e) /\
  (forall q b Lq, (q, b) <> (p, false) -> owned F q b Lq -> owned F' q b Lq).

(** What the getters deliver for a value *)
Definition attr_getter (c : attr_call) m n : Prop :=
  match c with
  | CStr v => bw_getStr m n = Ok (Some v) | CStr2 v => bw_getStr m n = Ok (Some (cstr v))
  | CInt32 v => int32 v -> bw_getInt32 m n = Ok (Some v)
  | CUInt32 v => 0 <= v < 4294967296 -> bw_getInt32 m n = Ok (Some (s32 v))
  | CFloat v => bw_getFloat m n = Ok (Some (le 4 v))
  | CInt64 v | CTime64 v => int64 v -> (forall ty, el_type m n = Ok ty -> ty = XBT_INT64 \/ ty = XBT_UNIX_TIME64_MSEC) -> bw_getInt64 m n = Ok (Some v)
  | CUInt64 v => bw_getUInt64 m n = Ok (Some (le 8 v))
  | CGuid v => bw_getGUID m n = Ok (Some (ztake 16 v))
  | _ => True
  end.
