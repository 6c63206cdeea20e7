(** What making an element with a value should do. *)
From Verif Require Import Base Types Sort Xb XbWrite Bw BwSpec BwHist BwSym BwNamesSpec BwLifeSpec BwAttr BwTag.

(** The calls, with their values *)
Inductive tag_call :=
| TNone | TStr (v : list Z) | TBlob (v : list Z) | TBlobZero (n : Z) | THex (v : list Z) | THexZero (n : Z) | TInt32 (v : Z) | TInt64 (v : Z) | TFloat (bits : Z)
| TGuid (v : list Z) | TSha1 (v : list Z) | TTime (v : Z) | TTime64 (v : Z).
Definition tag_run (c : tag_call) disk m id : outcome (option Z * list Z) :=
  match c with
  | TNone => bw_tag disk m id | TStr v => bw_tagStr disk m id v | TBlob v => bw_tagBLOB disk m id (inl v) | TBlobZero n => bw_tagBLOB disk m id (inr n)
  | THex v => bw_tagHEX disk m id (inl v) | THexZero n => bw_tagHEX disk m id (inr n) | TInt32 v => bw_tagInt32 disk m id v | TInt64 v => bw_tagInt64 disk m id v
  | TFloat v => bw_tagFloat disk m id v | TGuid v => bw_tagGUID disk m id v | TSha1 v => bw_tagSHA1 disk m id v | TTime v => bw_tagTime disk m id v
  | TTime64 v => bw_tagTime64 disk m id v
  end.
(** The types of the names it may be used for, each with the type of the element that is made *)
Definition tag_types (c : tag_call) : list (Z * Z) :=
  match c with
  | TNone => [(XBT_NULL, XBT_NULL); (XBT_VARIANT, XBT_NULL)]
  | TStr _ => [(XBT_STRING, XBT_STRING); (XBT_VARIANT, XBT_STRING); (XBT_BLOB_STRING, XBT_BLOB_STRING)]
  | TBlob _ | TBlobZero _ => [(XBT_BLOB, XBT_BLOB); (XBT_VARIANT, XBT_BLOB)] | THex _ | THexZero _ => [(XBT_HEX, XBT_HEX)]
  | TInt32 _ => map (fun t => (t, t)) [XBT_INT32; XBT_INT32_DECI; XBT_INT32_CENTI; XBT_INT32_MILI; XBT_INT32_MICRO; XBT_INT32_NANO; XBT_FLOAT; XBT_UNIX_TIME; XBT_IPv4; XBT_UINT32]
  | TInt64 _ => [(XBT_INT64, XBT_INT64); (XBT_VARIANT, XBT_INT64)] | TFloat _ => [(XBT_FLOAT, XBT_FLOAT)] | TGuid _ => [(XBT_GUID, XBT_GUID)] | TSha1 _ => [(XBT_SHA1, XBT_SHA1)]
  | TTime _ => [(XBT_UNIX_TIME, XBT_UNIX_TIME); (XBT_VARIANT, XBT_UNIX_TIME)]
  | TTime64 _ => [(XBT_UNIX_TIME64_MSEC, XBT_UNIX_TIME64_MSEC); (XBT_VARIANT, XBT_UNIX_TIME64_MSEC)]
  end.
(** The content getData delivers: the bytes that make up the value.  In a text with reserve more bytes follow the NUL. *)
Definition tag_content (c : tag_call) (t : Z) (b : list Z) : Prop :=
  match c with
  | TNone => b = [] | TStr v => if t =? XBT_BLOB_STRING then exists w, b = v ++ 0 :: w else b = v ++ [0]
  | TBlob v | THex v => b = v | TBlobZero n | THexZero n => b = zrepeat 0 n
  | TInt32 v | TFloat v | TTime v => b = le 4 v | TInt64 v | TTime64 v => b = le 8 v | TGuid v => b = ztake 16 v | TSha1 v => b = ztake 20 v
  end.
(** What the typed getters deliver; [ty] is the type of the name. *)
Definition tag_getter (c : tag_call) (ty : Z) m x : Prop :=
  match c with
  | TStr v => bw_getStr m x = Ok (Some v)
  | TInt32 v => int32 v -> bw_getInt32 m x = Ok (Some v)
  | TInt64 v | TTime64 v => int64 v -> bw_getInt64 m x = Ok (Some v)
  | TFloat v => bw_getFloat m x = Ok (Some (le 4 v))
  | TGuid v => bw_getGUID m x = Ok (Some (ztake 16 v))
  | _ => True
  end.
(** The arguments are what C passes: bytes, texts without NULs, sizes that are not negative, enough memory behind pointers. *)
Definition tag_args (c : tag_call) : Prop :=
  match c with
  | TStr v => cstring v /\ zlen v < 2 ^ 29 | TBlob v | THex v => bytes v /\ zlen v < 2 ^ 30 | TBlobZero n | THexZero n => 0 <= n < 2 ^ 30
  | TGuid v => bytes v /\ 16 <= zlen v | TSha1 v => bytes v /\ 20 <= zlen v
  | _ => True
  end.
(** The room it asks for *)
Definition tag_space (c : tag_call) : Z :=
  match c with
  | TNone => 0 | TStr v => 2 * zlen v | TBlob v | THex v => zlen v + 4 | TBlobZero n | THexZero n => n + 4
  | TInt32 _ | TFloat _ | TTime _ | TGuid _ | TSha1 _ => 4 | TInt64 _ | TTime64 _ => 8
  end + 16384.

(** [x] is a new element named [id] of type [t], on its own; all that was in the pool is byte for byte as before. *)
Definition tag_done (k : Z -> bool) (s : Z -> Z) m T P F id t (x : Z) m' : Prop :=
  exists k' s', life k' s' m' T P ((None, [x]) :: F) /\ (forall e, In e (members F) -> k' e = k e /\ s' e = s e) /\
  ~ In x (members F) /\ k' x = true /\ el_id m' x = Ok id /\ el_type m' x = Ok t /\ forall e, In e (members F) -> rd m' e (s e) = rd m e (s e).
