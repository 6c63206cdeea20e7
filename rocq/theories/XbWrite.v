(** Model of the converter's writer, src/bin_xml_creator.cpp:665-1000, for sources that deliver text
    (XML and JSON; getNodeBinValue and ForAllBinParams are the defaults of Bin_src_plugin).

    The buffer [m] has a fixed size and unspecified contents (malloc); the write pointer is an offset
    into it and malloc's result is 16-aligned, so alignment of addresses is alignment of offsets.
    Storing outside the buffer is [Ub]. *)
From Verif Require Import Base Types Sort Symtab Xb.

(** A source element as the plugin interface delivers it (bin_xml_creator.h:30-60): name, value, attributes
    in order, children in order.  A missing attribute value and an empty one are treated alike
    (src/bin_xml_creator.cpp:960). *)
Inductive node := Node (name : list Z) (value : option (list Z)) (attrs : list (list Z * list Z)) (kids : list node).

Definition wr (m : list Z) (p : Z) (bs : list Z) : outcome (list Z) :=
  if (0 <=? p) && (p + zlen bs <=? zlen m) then Ok (bput m p bs) else Ub.

(** FindOrAdd's result types: what WriteNode uses of the creator. *)
Record creator := mkcreator { cr_tags : table; cr_params : table }.
Definition type_at (t : table) (i : Z) : outcome Z :=
  if i <? 0 then Ub else match nth_error t (Z.to_nat i) with Some (_, ty) => Ok ty | None => Ub end.

(** Find as an [outcome]: its loop always ends (SymtabProofs.table_search), so the fuel it runs on suffices;
    running out would show as [Ub]. *)
Definition find_ (s : list Z) (t : table) : outcome Z := match Find (Some s) t with Some r => r | None => Ub end.

(** XStoreParamsEvent, src/bin_xml_creator.cpp:953-989: the record at [q] of the element at [x];
    result: buffer and write position. *)
Definition store_param fl (cr : creator) m wp x q (a : list Z * list Z) : outcome (list Z * Z) :=
  let '(name, value) := a in
  obind (find_ name (cr_params cr)) (fun id =>
  obind (wr m q (le 2 id)) (fun m =>
  let limit := zlen m in
  match value with
  | [] => obind (wr m (q + 2) [XBT_NULL]) (fun m => obind (wr m (q + 4) (le 4 0)) (fun m => Ok (m, wp)))
  | _ =>
      obind (if 0 <=? s16 id then type_at (cr_params cr) (s16 id) else Ok XBT_UNKNOWN) (fun ty0 =>
      let ty := XBT_Detect2 value ty0 in
      obind (XBT_Size2 ty 0) (fun size =>
      let as_text :=
        obind (wr m (q + 2) [XBT_STRING]) (fun m => obind (wr m (q + 4) (le 4 (wp - x))) (fun m =>
        obind (wr m wp (value ++ [0])) (fun m => Ok (m, wp + zlen value + 1)))) in
      if size =? 4 then
        match XBT_FromString fl value ty (q + 4) limit with
        | Ok st => obind (wr m (st_pos st) (st_bytes st)) (fun m => obind (wr m (q + 2) [ty]) (fun m => Ok (m, wp)))
        | Fail => as_text
        | Ub => Ub
        end
      else as_text))
  end)).
(** ForAllParams with that event. *)
Fixpoint store_params fl cr m wp x q (l : list (list Z * list Z)) : outcome (list Z * Z) :=
  match l with
  | [] => Ok (m, wp)
  | a :: r => obind (store_param fl cr m wp x q a) (fun '(m, wp) => store_params fl cr m wp x (q + 8) r)
  end.

(** The value, src/bin_xml_creator.cpp:846-877.  When XBT_FromString fails WriteNode returns a null pointer
    and its callers go on with it, which spoils the image: the model answers [Fail]. *)
Definition store_value fl m wp (value : option (list Z)) : outcome (list Z * Z) :=
  match value with
  | None => obind (wr m wp [XBT_NULL]) (fun m => Ok (m, wp + 1))
  | Some v =>
      let ty := XBT_Detect v in
      obind (wr m wp [ty]) (fun m =>
      obind (XBT_FromString fl v ty (wp + 1) (zlen m)) (fun st =>
      obind (wr m (st_pos st) (st_bytes st)) (fun m => Ok (m, st_wp st))))
  end.

(** ForAllChildren with XStoreChildrenEvent, src/bin_xml_creator.cpp:991-995; [W] is WriteNode. *)
Definition store_children (W : list Z -> Z -> node -> outcome (list Z * Z * Z)) (x : Z) :=
  fix go m wp c (l : list node) {struct l} : outcome (list Z * Z) :=
    match l with
    | [] => Ok (m, wp)
    | k :: r => obind (W m wp k) (fun '(m, wp, y) => obind (wr m c (le 4 (y - x))) (fun m => go m wp (c + 4) r))
    end.

(** WriteNode, src/bin_xml_creator.cpp:815-883: buffer, write position, start of the element.  Number of
    attributes and of children are counted in fields of 16 and 32 bits. *)
Fixpoint WriteNode fl cr m wp (t : node) {struct t} : outcome (list Z * Z * Z) :=
  let '(Node name value attrs kids) := t in
  let x := align_up 4 wp in
  obind (find_ name (cr_tags cr)) (fun id =>
  let pc := s16 (zlen attrs) in
  let cc := s32 (zlen kids) in
  obind (wr m x (le 2 id ++ le 2 pc ++ le 4 cc)) (fun m =>
  let params := x + 12 in
  let children := params + 8 * pc in
  obind (store_value fl m (children + 4 * cc) value) (fun '(m, wp) =>
  obind (store_params fl cr m wp x params attrs) (fun '(m, wp) =>
  obind (store_children (fun m wp t => WriteNode fl cr m wp t) x m wp children kids) (fun '(m, wp) =>
  obind (wr m (x + 8) (le 4 (wp - x))) (fun m =>
  Ok (m, wp, x))))))).

(** WriteChildSymbols, src/bin_xml_creator.cpp:721-779.  The loop over the names: [refs] and [types] are the
    places of the two arrays' next entries. *)
Fixpoint store_names m wp x refs types (t : table) : outcome (list Z * Z) :=
  match t with
  | [] => Ok (m, wp)
  | (n, ty) :: r =>
      obind (wr m refs (le 4 (wp - x))) (fun m =>
      obind (wr m types [ty]) (fun m =>
      obind (wr m wp (n ++ [0])) (fun m => store_names m (wp + zlen n + 1) x (refs + 4) (types + 1) r)))
  end.
Definition WriteChildSymbols m wp tag_name (t : table) : outcome (list Z * Z * Z) :=
  let x := align_up 4 wp in
  let SC := zlen t in
  obind (wr m x (le 2 tag_name ++ le 2 2 ++ le 4 0)) (fun m =>
  let p := x + 12 in
  obind (wr m p (le 2 XPNR_COUNT ++ [XBT_INT32])) (fun m => obind (wr m (p + 4) (le 4 SC)) (fun m =>
  obind (wr m (p + 8) (le 2 XPNR_TYPE_COUNT ++ [XBT_INT32])) (fun m => obind (wr m (p + 12) (le 4 SC)) (fun m =>
  obind (wr m (p + 16) [XBT_BLOB]) (fun m =>
  let size := align_up 4 (p + 17) in
  let block := size + 4 in
  obind (store_names m (block + 5 * SC) x block (block + 4 * SC) t) (fun '(m, wp) =>
  obind (wr m size (le 4 (wp - block))) (fun m =>
  let wp := align_up 4 wp in
  obind (wr m (x + 8) (le 4 (wp - x))) (fun m =>
  Ok (m, wp, x)))))))))).

(** WritePayloadContainer, src/bin_xml_creator.cpp:790-813; [W] is WriteNode on the root. *)
Definition WritePayloadOf (W : list Z -> Z -> outcome (list Z * Z * Z)) m wp tag_name : outcome (list Z * Z * Z) :=
  let x := align_up 4 wp in
  obind (wr m x (le 2 tag_name ++ le 2 0 ++ le 4 1)) (fun m =>
  let children := x + 12 in
  obind (wr m (children + 4) [XBT_NULL]) (fun m =>
  obind (W m (children + 5)) (fun '(m, wp, y) =>
  obind (wr m children (le 4 (y - x))) (fun m =>
  if negb ((y - x) mod 4 =? 0) then Fail (* assert, line 808 *)
  else
  obind (wr m (x + 8) (le 4 (wp - x))) (fun m =>
  Ok (m, wp, x)))))).

Definition WritePayloadContainer fl cr m wp tag_name (root : node) : outcome (list Z * Z * Z) :=
  WritePayloadOf (fun m wp => WriteNode fl cr m wp root) m wp tag_name.

(** FillData, src/bin_xml_creator.cpp:665-718; [modified] is the time of the source file, [W] WriteNode on the
    root.  Result: buffer and length. *)
Definition FillDataOf (W : list Z -> Z -> outcome (list Z * Z * Z)) cr m (filename : list Z) modified : outcome (list Z * Z) :=
  obind (wr m 0 (le 2 XTNR_META_ROOT ++ le 2 4 ++ le 4 3)) (fun m =>
  let p := 12 in
  let children := p + 8 * 4 in
  let wp := children + 4 * 3 in
  obind (wr m wp [XBT_NULL]) (fun m =>
  let wp := wp + 1 in
  obind (wr m p (le 2 XPNR_FORMAT_VERSION ++ [XBT_INT32])) (fun m => obind (wr m (p + 4) (le 4 256)) (fun m =>
  obind (wr m (p + 8) (le 2 XPNR_NAME ++ [XBT_STRING])) (fun m => obind (wr m (p + 12) (le 4 wp)) (fun m =>
  obind (wr m wp (filename ++ [0])) (fun m =>
  let wp := align_up 4 (wp + zlen filename + 1) in
  obind (wr m (p + 16) (le 2 XPNR_HASH ++ [XBT_SHA1])) (fun m => obind (wr m (p + 20) (le 4 wp)) (fun m =>
  obind (wr m wp (zrepeat 161 20)) (fun m =>
  let wp := wp + 20 in
  obind (wr m (p + 24) (le 2 XPNR_MODIFIED ++ [XBT_UNIX_TIME])) (fun m => obind (wr m (p + 28) (le 4 modified)) (fun m =>
  obind (WriteChildSymbols m wp XTNR_TAG_SYMBOLS (cr_tags cr)) (fun '(m, wp, y) =>
  obind (wr m children (le 4 y)) (fun m =>
  obind (WriteChildSymbols m wp XTNR_PARAM_SYMBOLS (cr_params cr)) (fun '(m, wp, y) =>
  obind (wr m (children + 4) (le 4 y)) (fun m =>
  obind (WritePayloadOf W m wp XTNR_PAYLOAD) (fun '(m, wp, y) =>
  obind (wr m (children + 8) (le 4 y)) (fun m =>
  obind (wr m 8 (le 4 wp)) (fun m => Ok (m, wp)))))))))))))))))))).

Definition FillData fl cr m (filename : list Z) modified (root : node) : outcome (list Z * Z) :=
  FillDataOf (fun m wp => WriteNode fl cr m wp root) cr m filename modified.

(** The two symbol tables, src/bin_xml_creator.cpp:466-495, 556-584 (MakeSymbolTable): elements in preorder,
    the attributes of each in order.  ForAllChildrenRecursively visits the root itself first. *)
Fixpoint tag_uses (t : node) : list (list Z * list Z) :=
  let '(Node name value _ kids) := t in (name, match value with Some v => v | None => [] end) :: flat_map tag_uses kids.
Fixpoint attr_uses (t : node) : list (list Z * list Z) :=
  let '(Node _ _ attrs kids) := t in attrs ++ flat_map attr_uses kids.
Definition MakeSymbolTable (root : node) : run creator :=
  rbind (register [] (tag_uses root)) (fun tags => rbind (register [] (attr_uses root)) (fun params => rret (mkcreator tags params))).

(** Make_xb, src/bin_xml_creator.cpp:371-443, without the final file: the image is the first
    AA(length) bytes of the buffer (Pack does nothing in the plain converter, 658-662). *)
Definition Make_xb fl m filename modified root : run (list Z) :=
  rbind (MakeSymbolTable root) (fun cr =>
  rbind (Some (FillData fl cr m filename modified root)) (fun '(m, size) =>
  let size := align_up 4 size in
  if zlen m <? size then Some Ub else rret (ztake size m))).
