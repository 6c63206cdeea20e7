(** Model of the reader of .xb images: src/bin_xml.cpp and include/binary_xml/bin_xml.h.

    The image is the list of the bytes of the file; pointers into it are offsets from its start.
    Reading outside the image is [Ub] (on a real machine the rest of the last page would read as zeros
    and everything beyond would fault).  A mapping starts at a page, so the alignment of an address is
    the alignment of its offset.  Null pointers are [None]; the THIS_IS_NULL guards are kept. *)
From Verif Require Import Base Scan Types Sort Symtab.

Definition slice (m : list Z) (p n : Z) : list Z := ztake n (zskip p m).
Definition rd (m : list Z) (p n : Z) : outcome (list Z) := if (0 <=? p) && (p + n <=? zlen m) then Ok (slice m p n) else Ub.
Definition rd_u8 m p : outcome Z := obind (rd m p 1) (fun b => Ok (unle b)).
Definition rd_s16 m p : outcome Z := obind (rd m p 2) (fun b => Ok (s16 (unle b))).
Definition rd_s32 m p : outcome Z := obind (rd m p 4) (fun b => Ok (s32 (unle b))).
(** The text at [p]: without a NUL inside the image it is not readable. *)
Definition rd_str (m : list Z) (p : Z) : outcome (list Z) :=
  if (0 <=? p) && (p <? zlen m) then let s := cstr (zskip p m) in if p + zlen s <? zlen m then Ok s else Ub else Ub.
(** strnlen(m + p, max) *)
Definition strnlen_ (m : list Z) (p max : Z) : outcome Z :=
  if p <? 0 then Ub else
  let s := cstr (ztake max (zskip p m)) in
  if (zlen s =? max) || (p + zlen s <? zlen m) then Ok (zlen s) else Ub.

(** bin_xml.h:40-70 *)
Definition XTNR_META_ROOT := -2.
Definition XTNR_TAG_SYMBOLS := -3.
Definition XTNR_PARAM_SYMBOLS := -4.
Definition XTNR_PAYLOAD := -6.
Definition XTNR_LAST := -11.
Definition XPNR_NAME := -2.
Definition XPNR_HASH := -3.
Definition XPNR_MODIFIED := -4.
Definition XPNR_COUNT := -5.
Definition XPNR_FORMAT_VERSION := -6.
Definition XPNR_TYPE_COUNT := -7.
Definition XPNR_LAST := -11.
(** bin_xml.h:38: seven hexadecimal digits *)
Definition INT32_NULL := -134217728.

(** ** The element header, bin_xml.h:87-97 (12 bytes), and the attribute record, 141-147 (8 bytes) *)
Definition it_name m x := rd_s16 m x.
Definition it_paramcount m x := rd_s16 m (x + 2).
Definition it_childcount m x := rd_s32 m (x + 4).
Definition it_length m x := rd_s32 m (x + 8).
Definition pd_name m q := rd_s16 m q.
Definition pd_type m q := rd_u8 m (q + 2).
Definition pd_data m q := rd_s32 m (q + 4).

(** src/bin_xml.cpp:212-219 *)
Definition getParamByIndex m (x : option Z) (i : Z) : outcome (option Z) :=
  match x with
  | None => Ok None
  | Some x => if i <? 0 then Ok None else obind (it_paramcount m x) (fun pc => Ok (if pc <=? i then None else Some (x + 12 + 8 * i)))
  end.
(** src/bin_xml.cpp:221-228: [n] attributes from [q] on. *)
Fixpoint find_param (n : nat) m q code : outcome (option Z) :=
  match n with
  | O => Ok None
  | S k => obind (pd_name m q) (fun nm => if nm =? code then Ok (Some q) else find_param k m (q + 8) code)
  end.
Definition getParamByName m (x : option Z) code : outcome (option Z) :=
  match x with
  | None => Ok None
  | Some x => obind (it_paramcount m x) (fun pc => find_param (Z.to_nat pc) m (x + 12) code)
  end.
(** src/bin_xml.cpp:230-236: where the links to the children start. *)
Definition children_pos m x : outcome Z := obind (it_paramcount m x) (fun pc => Ok (x + 12 + 8 * pc)).
(** src/bin_xml.cpp:238-244 *)
Definition getChildByIndex m (x : option Z) (i : Z) : outcome (option Z) :=
  match x with
  | None => Ok None
  | Some x =>
      obind (it_childcount m x) (fun cc =>
      if (i <? 0) || (cc <=? i) then Ok None
      else obind (children_pos m x) (fun c => obind (rd_s32 m (c + 4 * i)) (fun r => Ok (Some (x + r)))))
  end.
(** src/bin_xml.cpp:246-257 *)
Fixpoint find_child (n : nat) m x c code : outcome (option Z) :=
  match n with
  | O => Ok None
  | S k => obind (rd_s32 m c) (fun r => obind (it_name m (x + r)) (fun nm => if nm =? code then Ok (Some (x + r)) else find_child k m x (c + 4) code))
  end.
Definition getChildByName m (x : option Z) code : outcome (option Z) :=
  match x with
  | None => Ok None
  | Some x => obind (it_childcount m x) (fun cc => obind (children_pos m x) (fun c => find_child (Z.to_nat cc) m x c code))
  end.

(** ** Attribute values *)

(** bin_xml.h:149-155 *)
Definition param_getInt m (q : option Z) (x : option Z) : outcome Z :=
  match q with
  | None => Ok INT32_NULL
  | Some q =>
      obind (pd_type m q) (fun ty =>
      if ty =? XBT_INT32 then pd_data m q
      else match x with
           | None => Ok INT32_NULL
           | Some x => if ty =? XBT_STRING then obind (pd_data m q) (fun d => obind (rd_str m (x + d)) (fun s => Ok (atoi s))) else Ok INT32_NULL
           end)
  end.

(** Whether the bytes from the (aligned) value on hold everything the conversion to text reads. *)
Definition readable (ty : Z) (data : list Z) : bool :=
  if ty =? XBT_STRING then zlen (cstr data) <? zlen data
  else if XBT_IS_VARSIZE ty then (4 <=? zlen data) && (4 + unle (ztake 4 data) <=? zlen data)
  else if XBT_IS_4 ty || (ty =? XBT_UNIX_DATE) then 4 <=? zlen data
  else if XBT_IS_8 ty then 8 <=? zlen data
  else if isin ty [XBT_GUID; XBT_IPv6] then 16 <=? zlen data
  else if ty =? XBT_SHA1 then 20 <=? zlen data
  else true.
(** XBT_ToString and XBT_ToStringChunk on a pointer into the image (src/bin_xml_types.cpp:702-706, 805-813
    align it). *)
Definition image_ToString fl m ty p out st : outcome (shown * ring) :=
  let d := align_to (XBT_Align ty) p in
  if (0 <=? d) && (d <=? zlen m) && readable ty (zskip d m) then XBT_ToString fl ty (zskip d m) out st else Ub.
Definition image_ToStringChunk fl m ty p offset dst : outcome chunk :=
  let d := align_to (XBT_Align ty) p in
  if (0 <=? d) && (d <=? zlen m) && readable ty (zskip d m) then XBT_ToStringChunk fl ty (zskip d m) offset dst else Ub.

(** src/bin_xml.cpp:149-163: STRING values are returned in place; values of four bytes live in the
    attribute record. *)
Definition param_getString fl m (q x : option Z) out st : outcome (shown * ring) :=
  match q, x with
  | Some q, Some x =>
      obind (pd_type m q) (fun ty =>
      if ty =? XBT_STRING then obind (pd_data m q) (fun d => obind (rd_str m (x + d)) (fun s => Ok (Text s, st)))
      else if XBT_IS_4 ty then image_ToString fl m ty (q + 4) out st
      else obind (pd_data m q) (fun d => image_ToString fl m ty (x + d) out st))
  | _, _ => Ok (NoText, st)
  end.
(** src/bin_xml.cpp:172-184 *)
Definition param_getStringChunk fl m (q x : option Z) offset dst : outcome chunk :=
  match q, x with
  | Some q, Some x =>
      obind (pd_type m q) (fun ty =>
      if XBT_IS_4 ty then image_ToStringChunk fl m ty (q + 4) offset dst
      else obind (pd_data m q) (fun d => image_ToStringChunk fl m ty (x + d) offset dst))
  | _, _ => Ok (mkchunk 0 offset dst)
  end.
(** A reference to a value, include/binary_xml/bin_xml_types.h XML_Binary_Data_Ref: type, place, size. *)
Record data_ref := mkref { dr_type : Z; dr_data : option Z; dr_size : Z }.
(** src/bin_xml.cpp:186-209 *)
Definition param_getData m (q x : option Z) : outcome data_ref :=
  match q, x with
  | Some q, Some x =>
      obind (pd_type m q) (fun ty =>
      if XBT_IS_4 ty then Ok (mkref ty (Some (q + 4)) 4)
      else obind (pd_data m q) (fun d =>
        if ty =? XBT_STRING then obind (rd_str m (x + d)) (fun s => Ok (mkref ty (Some (x + d)) (1 + zlen s)))
        else if XBT_IS_VARSIZE ty then obind (rd_s32 m (x + d)) (fun n => Ok (mkref ty (Some (x + d)) (4 + n)))
        else Ok (mkref ty (Some (x + d)) (XBT_FIXEDSIZE ty))))
  | _, _ => Ok (mkref XBT_UNKNOWN None 0)
  end.
(** src/bin_xml.cpp:114-132, 134-147: the value behind the pointer that is returned; for STRING it is
    a static variable.  getInt64Ptr of an INT64 attribute points to the eight bytes from the data field
    on, which include the next record. *)
Definition param_getInt32 m (q x : option Z) int_type : outcome (option Z) :=
  match q, x with
  | Some q, Some x =>
      obind (pd_type m q) (fun ty =>
      if ty =? int_type then obind (pd_data m q) (fun d => Ok (Some d))
      else if ty =? XBT_STRING then obind (pd_data m q) (fun d => obind (rd_str m (x + d)) (fun s => Ok (Some (atoi s))))
      else Ok None)
  | _, _ => Ok None
  end.
Definition param_getInt64 m (q x : option Z) : outcome (option Z) :=
  match q, x with
  | Some q, Some x =>
      obind (pd_type m q) (fun ty =>
      if ty =? XBT_INT64 then obind (rd m (q + 4) 8) (fun b => Ok (Some (s64 (unle b))))
      else if ty =? XBT_STRING then
        obind (pd_data m q) (fun d => obind (rd_str m (x + d)) (fun s =>
        match ScanInt64 s with Ok (v, _) => Ok (Some v) | Fail => Ok None | Ub => Ub end))
      else Ok None)
  | _, _ => Ok None
  end.

(** ** Element values *)

(** The type byte behind the links, src/bin_xml.cpp:343-346 and the like; [char] is signed. *)
Definition value_pos m x : outcome Z :=
  obind (it_paramcount m x) (fun pc => obind (it_childcount m x) (fun cc => Ok (x + 12 + 8 * pc + 4 * cc))).
Definition value_type m x : outcome (Z * Z) := obind (value_pos m x) (fun p => obind (rd_u8 m p) (fun t => Ok (s8 t, p + 1))).

(** src/bin_xml.cpp:338-351 *)
Definition getString fl m (x : option Z) out st : outcome (shown * ring) :=
  match x with
  | None => Ok (NoText, st)
  | Some x => obind (value_type m x) (fun '(t, p) =>
      if t =? XBT_STRING then obind (rd_str m p) (fun s => Ok (Text s, st)) else image_ToString fl m t p out st)
  end.
(** src/bin_xml.cpp:353-367 *)
Definition getStringChunk fl m (x : option Z) offset dst : outcome chunk :=
  match x with
  | None => Ok (mkchunk 0 offset dst)
  | Some x => obind (value_type m x) (fun '(t, p) => image_ToStringChunk fl m t p offset dst)
  end.
(** src/bin_xml.cpp:371-396: place and size *)
Definition getBinary m (x : option Z) : outcome (option (Z * Z)) :=
  match x with
  | None => Ok None
  | Some x => obind (value_type m x) (fun '(t, p) =>
      if t =? XBT_BLOB then let p := align_up 4 p in obind (rd_s32 m p) (fun n => Ok (Some (p + 4, n)))
      else if t =? XBT_STRING then obind (rd_str m p) (fun s => Ok (Some (p, zlen s)))
      else Ok None)
  end.
(** src/bin_xml.cpp:398-421 *)
Definition getInt m (x : option Z) : outcome Z :=
  match x with
  | None => Ok INT32_NULL
  | Some x => obind (value_type m x) (fun '(t, p) =>
      if t =? XBT_INT32 then rd_s32 m (align_up 4 p)
      else if t =? XBT_STRING then obind (rd_str m p) (fun s => Ok (atoi s))
      else Ok INT32_NULL)
  end.
(** src/bin_xml.cpp:423-447: the value behind the pointer.  The static variable of the STRING branch is
    initialised once: [old] is its value, if any earlier call has set it. *)
Definition getIntPtr m (x : option Z) (old : option Z) : outcome (option Z * option Z) :=
  match x with
  | None => Ok (None, old)
  | Some x => obind (value_type m x) (fun '(t, p) =>
      if t =? XBT_INT32 then obind (rd_s32 m (align_up 4 p)) (fun v => Ok (Some v, old))
      else if t =? XBT_STRING then
        match old with
        | Some v => Ok (Some v, old)
        | None => obind (rd_str m p) (fun s => Ok (Some (atoi s), Some (atoi s)))
        end
      else Ok (None, old))
  end.
(** src/bin_xml.cpp:449-474 *)
Definition getInt64 m (x : option Z) : outcome (option Z) :=
  match x with
  | None => Ok None
  | Some x => obind (value_type m x) (fun '(t, p) =>
      if t =? XBT_INT64 then obind (rd m (align_up 8 p) 8) (fun b => Ok (Some (s64 (unle b))))
      else if t =? XBT_STRING then obind (rd_str m p) (fun s => match ScanInt64 s with Ok (v, _) => Ok (Some v) | Fail => Ok None | Ub => Ub end)
      else Ok None)
  end.
(** src/bin_xml.cpp:476-522 *)
Definition getData m (x : option Z) : outcome data_ref :=
  match x with
  | None => Ok (mkref XBT_UNKNOWN None 0)
  | Some x => obind (value_type m x) (fun '(t, p) =>
      let ref p n := if n <? 0 then Fail (* assert, line 520 *) else Ok (mkref t (Some p) n) in
      if XBT_IS_4 t then ref (align_up 4 p) 4
      else if XBT_IS_8 t then ref (align_up 8 p) 8
      else if t =? XBT_STRING then obind (rd_str m p) (fun s => ref p (zlen s + 1))
      else if XBT_IS_VARSIZE t then let p := align_up 4 p in obind (rd_s32 m p) (fun n => ref p (4 + n))
      else ref (align_up 4 p) (XBT_FIXEDSIZE t))
  end.

(** ** Symbol tables, src/bin_xml.cpp:624-716 *)

(** item_container, count, reference_array, type_count (type_array is reference_array + count). *)
Record symbols := mksym { sy_item : Z; sy_count : Z; sy_refs : option Z; sy_type_count : Z }.
(** src/bin_xml.cpp:624-631; [sy_item] is not used while the count is 0. *)
Definition no_symbols : symbols := mksym 0 0 None 0.

(** The loop of Load, src/bin_xml.cpp:671-679: names [s .. s+n). *)
Fixpoint check_names (n : nat) m c refs s A0 A1 : outcome bool :=
  match n with
  | O => Ok true
  | S k =>
      obind (rd_s32 m (refs + 4 * s)) (fun r =>
      let value := c + r in
      if value <? A0 then Ok false else if A1 <=? value then Ok false
      else obind (strnlen_ m value (A1 - value)) (fun len =>
           if len =? A1 - value then Ok false else check_names k m c refs (s + 1) A0 A1))
  end.
(** src/bin_xml.cpp:642-681; [Fail] is the answer false.  type_count keeps its old (uninitialised) value
    for an empty table, where nothing reads it. *)
Definition Load m (c : option Z) : outcome symbols :=
  obind (getParamByName m c XPNR_COUNT) (fun q => obind (param_getInt m q c) (fun count =>
  match c with
  | None => Fail (* getInt of a null attribute gives INT32_NULL *)
  | Some c =>
      if count =? INT32_NULL then Fail
      else if count =? 0 then Ok (mksym c 0 None 0)
      else
      obind (getParamByName m (Some c) XPNR_TYPE_COUNT) (fun q => obind (param_getInt m q (Some c)) (fun tc0 =>
      let tc := if tc0 =? INT32_NULL then 0 else tc0 in
      obind (getBinary m (Some c)) (fun b =>
      match b with
      | None => Fail
      | Some (refs, size) =>
          let A0 := refs + 4 * count + tc in
          let A1 := refs + size in
          if A1 <? A0 then Fail
          else obind (check_names (Z.to_nat count) m c refs 0 A0 A1) (fun ok =>
               if ok : bool then Ok (mksym c count (Some refs) tc) else Fail)
      end)))
  end)).

(** src/bin_xml.cpp:884-900 *)
Definition XTNR2str (n : Z) : list Z :=
  if n =? -1 then lit "NULL" else if n =? -2 then lit "meta_root" else if n =? -3 then lit "tag_symbols"
  else if n =? -4 then lit "param_symbols" else if n =? -5 then lit "hash_index" else if n =? -6 then lit "payload"
  else if n =? -7 then lit "reference" else if n =? -8 then lit "processed" else if n =? -9 then lit "et-tecera"
  else if n =? -10 then lit "transaction" else lit "__reserved__".
(** The name at index [i]: item_container + reference_array[i]. *)
Definition symbol_at m (t : symbols) (i : Z) : outcome (list Z) :=
  match sy_refs t with None => Ub | Some refs => obind (rd_s32 m (refs + 4 * i)) (fun r => rd_str m (sy_item t + r)) end.
(** src/bin_xml.cpp:683-688 *)
Definition getSymbol m (t : symbols) (id : Z) : outcome (list Z) :=
  if id <? 0 then Ok (XTNR2str id) else if sy_count t <=? id then Ok (lit "__out_of_range__") else symbol_at m t id.
(** src/bin_xml.cpp:690-696 *)
Definition getType m (t : symbols) (id : Z) : outcome Z :=
  if id <? 0 then Ok XBT_NULL
  else match sy_refs t with
       | None => Ok XBT_NULL
       | Some refs => if sy_type_count t <=? id then Ok XBT_NULL else rd_u8 m (refs + 4 * sy_count t + id)
       end.
(** src/bin_xml.cpp:699-716 *)
Definition getID m (t : symbols) (name : list Z) : run Z :=
  rbind (search (S (Z.to_nat (sy_count t))) (fun i => obind (symbol_at m t i) (fun n => Ok (memcmp name n))) 0 (sy_count t - 1))
    (fun r => rret (match r with inl M => M | inr _ => -1 end)).

(** ** The integrity check, src/bin_xml.cpp:24-109 *)

(** What Check uses of XB_reader: the file size (the length of [m]) and the two symbol counts. *)
Record counts := mkcounts { ct_tags : Z; ct_params : Z }.

(** The verdict on the attributes, lines 48-94: [None] when the loop ends without one. *)
Fixpoint check_params (n : nat) m R x length q : outcome (option bool) :=
  match n with
  | O => Ok None
  | S k =>
      obind (pd_name m q) (fun nm => obind (pd_type m q) (fun ty => obind (pd_data m q) (fun d =>
      if (nm <=? XPNR_LAST) || (ct_params R <=? nm) || (XBT_LAST <=? ty) then Ok (Some false)
      else if isin ty [XBT_NULL; XBT_INT32; XBT_FLOAT; XBT_UNIX_TIME; XBT_IPv4] then check_params k m R x length (q + 8)
      else if (d <? 0) || (length <=? d) then Ok (Some false)
      else if ty =? XBT_STRING then obind (strnlen_ m (x + d) (length - d)) (fun len => Ok (Some (len <? length - d)))
      else if isin ty [XBT_INT64; XBT_UINT64; XBT_UNIX_TIME64_MSEC; XBT_DOUBLE] then Ok (Some (d + 8 <=? u32 length))
      else if ty =? XBT_SHA1 then Ok (Some (d + 24 <=? u32 length))
      else if isin ty [XBT_GUID; XBT_IPv6] then Ok (Some (d + 16 <=? u32 length))
      else Ok (Some false))))
  end.

(** The fuel counts the depth of the recursion. *)
Fixpoint Check (fuel : nat) m R (x : option Z) (recursive : bool) : run bool :=
  match fuel with
  | O => None
  | S k =>
      match x with
      | None => rret false
      | Some x =>
          if x <? 0 then rret false
          else if zlen m <? x + 12 then rret false
          else
          rbind (Some (it_length m x)) (fun length =>
          if zlen m <? x + length then rret false
          else if negb (align_up 4 x =? x) then rret false
          else
          rbind (Some (it_name m x)) (fun name =>
          if (name <=? XTNR_LAST) || (ct_tags R <=? name) then rret false
          else
          rbind (Some (it_paramcount m x)) (fun pc => rbind (Some (it_childcount m x)) (fun cc =>
          if u32 length <? u64 (12 + 8 * pc + 4 * cc) then rret false
          else
          rbind (Some (check_params (Z.to_nat pc) m R x length (x + 12))) (fun v =>
          match v with
          | Some b => rret b
          | None =>
              if recursive then
                (fix children (n : nat) (i : Z) : run bool :=
                   match n with
                   | O => rret true
                   | S n' => rbind (Some (getChildByIndex m (Some x) i)) (fun c =>
                             rbind (match c with None => rret false | Some _ => Check k m R c true end) (fun ok =>
                             if ok : bool then children n' (i + 1) else rret false))
                   end) (Z.to_nat cc) 0
              else rret true
          end)))))
      end
  end.

(** ** Opening a file, src/bin_xml.cpp:787-827 (after a possible conversion) *)
Record reader := mkreader { rd_tags : symbols; rd_params : symbols; rd_root : option Z }.
Definition verdict (b : run bool) : run unit := rbind b (fun ok => if ok : bool then rret tt else Some Fail).
(** [Fail]: a failed assertion or the answer false. *)
Definition Initialize (fuel : nat) m : run reader :=
  if zlen m <=? 12 then Some Fail
  else
  rbind (Some (it_name m 0)) (fun nm => if negb (nm =? XTNR_META_ROOT) then Some Fail else
  rbind (verdict (Check fuel m (mkcounts 0 0) (Some 0) false)) (fun _ =>
  rbind (Some (getChildByName m (Some 0) XTNR_TAG_SYMBOLS)) (fun X =>
  rbind (verdict (Check fuel m (mkcounts 0 0) X false)) (fun _ =>
  rbind (Some (Load m X)) (fun tags =>
  rbind (Some (getChildByName m (Some 0) XTNR_PARAM_SYMBOLS)) (fun X =>
  rbind (verdict (Check fuel m (mkcounts (sy_count tags) 0) X false)) (fun _ =>
  rbind (Some (Load m X)) (fun params =>
  rbind (verdict (Check fuel m (mkcounts (sy_count tags) (sy_count params)) (Some 0) true)) (fun _ =>
  rbind (Some (getChildByName m (Some 0) XTNR_PAYLOAD)) (fun P =>
  rbind (Some (getChildByIndex m P 0)) (fun root =>
  rret (mkreader tags params root)))))))))))).

(** ** Iteration that continues into appended records, src/bin_xml.cpp:259-289 *)

(** Result: the child and the new value of the iterator.  The sums are of type int. *)
Definition getNextChild m (x : option Z) (i : Z) : outcome (option Z * Z) :=
  match x with
  | None => Ok (None, i)
  | Some x =>
      obind (it_childcount m x) (fun cc =>
      if cc <=? i then Ok (None, i)
      else
      let appended i :=
        let offset := align_up 4 (- i) in
        if s32 (zlen m) <? offset + 12 then Ok (None, i)
        else obind (it_length m offset) (fun len =>
             if negb (int32b (offset + len)) then Ub
             else if s32 (zlen m) <? offset + len then Ok (None, i)
             else Ok (Some offset, - align_up 4 (offset + len))) in
      if 0 <=? i then
        obind (children_pos m x) (fun c => obind (rd_s32 m (c + 4 * i)) (fun r =>
        obind (it_name m (x + r)) (fun nm =>
        if negb (nm =? XTNR_ET_TECERA) then Ok (Some (x + r), i + 1)
        else obind (it_length m 0) (fun len => appended (- len)))))
      else appended i)
  end.
