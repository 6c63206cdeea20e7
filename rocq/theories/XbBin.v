(** Model of the converter's writer for sources that deliver binary values, src/bin_xml_creator.cpp:815-951:
    the XBW plugin (getNodeBinValue and ForAllBinParams, src/bin_write_plugin.cpp:2790-2891).

    The buffer is as in XbWrite.v.  A pointer to a value is the readable memory from it on; a pool's values
    stand at multiples of 4, so aligning such a pointer (src/bin_xml_creator.cpp:918) does not move it. *)
From Verif Require Import Base Types Sort Symtab Xb XbWrite.

(** A source element: name, type and value, attributes (name, type, value), children. *)
Inductive bnode := BNode (name : list Z) (ty : Z) (src : list Z) (attrs : list (list Z * Z * list Z)) (kids : list bnode).

(** XStoreBinParamsEvent, src/bin_xml_creator.cpp:900-951: the record at [q] of the element at [x]; result: buffer
    and write position.  A null value pointer (line 909) is not delivered by the XBW plugin and left out.  When the value
    does not fit the buffer only a message is printed (line 949, ASSERT_NO_DO_NOTHING): the record stays, without its value. *)
Definition store_bin_param (cr : creator) m wp x q (a : list Z * Z * list Z) : outcome (list Z * Z) :=
  let '(name, ty, src) := a in
  obind (find_ name (cr_params cr)) (fun id =>
  obind (wr m q (le 2 id)) (fun m =>
  if ty =? XBT_NULL then obind (wr m (q + 2) [XBT_NULL]) (fun m => obind (wr m (q + 4) (le 4 0)) (fun m => Ok (m, wp)))
  else
  let limit := zlen m in
  let apart content_size :=
    let wp := align_to (XBT_Align ty) wp in
    obind (wr m (q + 2) [ty]) (fun m => obind (wr m (q + 4) (le 4 (wp - x))) (fun m =>
    match XBT_Copy src ty content_size wp limit with
    | Ok st => obind (wr m (st_pos st) (st_bytes st)) (fun m => Ok (m, st_wp st))
    | Fail => Ok (m, wp)
    | Ub => Ub
    end)) in
  if XBT_IS_VARSIZE ty then obind (rd_s32 src 0) apart
  else
  obind (XBT_Size2 ty 0) (fun size =>
  if negb (ty =? XBT_STRING) && (size <=? 4) then
    match XBT_Copy src ty 0 (q + 4) limit with
    | Ok st => obind (wr m (st_pos st) (st_bytes st)) (fun m => obind (wr m (q + 2) [ty]) (fun m => Ok (m, wp)))
    | Fail => apart 0
    | Ub => Ub
    end
  else apart 0))).
(** ForAllBinParams with that event. *)
Fixpoint store_bin_params cr m wp x q (l : list (list Z * Z * list Z)) : outcome (list Z * Z) :=
  match l with
  | [] => Ok (m, wp)
  | a :: r => obind (store_bin_param cr m wp x q a) (fun '(m, wp) => store_bin_params cr m wp x (q + 8) r)
  end.

(** BW_plugin::getNodeBinValue, src/bin_write_plugin.cpp:2790-2809: the size, or no value. *)
Definition node_bin_size ty src : outcome (option Z) :=
  if (ty =? XBT_BLOB) || (ty =? XBT_HEX) then obind (rd_s32 src 0) (fun n => Ok (Some n))
  else if ty =? XBT_STRING then obind (rd_str src 0) (fun s => Ok (Some (zlen s)))
  else if ty =? XBT_NULL then Ok None
  else Ok (Some 0).
(** The value, src/bin_xml_creator.cpp:846-858.  A failed copy makes WriteNode return a null pointer: [Fail], as in
    XbWrite.v.  An element of type XBT_UNKNOWN would take the path for texts, which is left out ([Fail]). *)
Definition store_bin_value m wp ty src : outcome (list Z * Z) :=
  obind (node_bin_size ty src) (fun size =>
  if ty =? XBT_UNKNOWN then Fail
  else match size with
  | None => obind (wr m wp [XBT_NULL]) (fun m => Ok (m, wp + 1))
  | Some n =>
      obind (wr m wp [ty]) (fun m =>
      obind (XBT_Copy src ty n (wp + 1) (zlen m)) (fun st =>
      obind (wr m (st_pos st) (st_bytes st)) (fun m => Ok (m, st_wp st))))
  end).

(** ForAllChildren with XStoreChildrenEvent, src/bin_xml_creator.cpp:991-995. *)
Definition store_bin_children (W : list Z -> Z -> bnode -> outcome (list Z * Z * Z)) (x : Z) :=
  fix go m wp c (l : list bnode) {struct l} : outcome (list Z * Z) :=
    match l with
    | [] => Ok (m, wp)
    | k :: r => obind (W m wp k) (fun '(m, wp, y) => obind (wr m c (le 4 (y - x))) (fun m => go m wp (c + 4) r))
    end.

(** WriteNode, src/bin_xml_creator.cpp:815-883 *)
Fixpoint BinWriteNode cr m wp (t : bnode) {struct t} : outcome (list Z * Z * Z) :=
  let '(BNode name ty src attrs kids) := t in
  let x := align_up 4 wp in
  obind (find_ name (cr_tags cr)) (fun id =>
  let pc := s16 (zlen attrs) in
  let cc := s32 (zlen kids) in
  obind (wr m x (le 2 id ++ le 2 pc ++ le 4 cc)) (fun m =>
  let params := x + 12 in
  let children := params + 8 * pc in
  obind (store_bin_value m (children + 4 * cc) ty src) (fun '(m, wp) =>
  obind (store_bin_params cr m wp x params attrs) (fun '(m, wp) =>
  obind (store_bin_children (fun m wp t => BinWriteNode cr m wp t) x m wp children kids) (fun '(m, wp) =>
  obind (wr m (x + 8) (le 4 (wp - x))) (fun m =>
  Ok (m, wp, x))))))).

(** The symbol tables, CopySymbolTable, src/bin_xml_creator.cpp:445-465: every name of the source's table whose type is
    known.  (The arrays it allocates have as many places as the source has names.)  *)
Fixpoint copy_names (t : table) (l : list (list Z * Z)) : run table :=
  match l with
  | [] => rret t
  | (n, ty) :: r => if ty =? XBT_UNKNOWN then copy_names t r else rbind (FindOrAddTyped (Some n) t ty) (fun '(_, t') => copy_names t' r)
  end.
Definition CopySymbolTable (tags params : list (list Z * Z)) : run creator :=
  rbind (copy_names [] tags) (fun t => rbind (copy_names [] params) (fun p => rret (mkcreator t p))).

(** Make_xb, src/bin_xml_creator.cpp:371-443, as in XbWrite.v, for a source with tables [tags] and [params].  A source without
    any name would go on to MakeSymbolTable (lines 448, 384); that is left out ([Fail]). *)
Definition BinMake_xb m filename modified (tags params : list (list Z * Z)) root : run (list Z) :=
  if zlen tags <=? 0 then Some Fail else
  rbind (CopySymbolTable tags params) (fun cr =>
  rbind (Some (FillDataOf (fun m wp => BinWriteNode cr m wp root) cr m filename modified)) (fun '(m, size) =>
  let size := align_up 4 size in
  if zlen m <? size then Some Ub else rret (ztake size m))).
