(** Model of the names of an XBW pool: BW_symbol_table_16B and the registration of names, src/bin_write_plugin.cpp.

    A table is [t], where its 16 bytes are in the header (TAGS or PARAMS).  Its names are stored one behind the other as
    id (2 bytes), type (1 byte), text, NUL, rounded up to 4 bytes.  Messages and the name of the document printed in them
    (getDocTypeName) are not modelled; shifting a negative char to the left (undefined before C++20) is taken as
    multiplication.  Calls with a null name are not modelled. *)
From Verif Require Import Base Scan Types Sort Symtab Xb XbWrite Bw.

Definition rd_s8 m p : outcome Z := obind (rd_u8 m p) (fun b => Ok (s8 b)).
(** [id = *(p++); id |= *(p++) << 8], plain char *)
Definition entry_id m p : outcome Z := b0 <- rd_s8 m p ;; b1 <- rd_s8 m (p + 1) ;; Ok (Z.lor b0 (b1 * 256)).
(** [while (p < p_limit && *p != 0) p++]; the bytes to the limit are looked at at once. *)
Definition to_nul m p limit : outcome Z :=
  if limit <=? p then Ok p else b <- rd m p (limit - p) ;; Ok (p + zlen (cstr b)).

(** The loop of getNamesSize, 1402-1418: where it stops and the new max_id. *)
Fixpoint names_walk (fuel : nat) m max_id limit p id prev : run (Z * Z) :=
  match fuel with
  | O => None
  | S k =>
      if max_id <? id then rret (p, max_id) else
      rbind (Some (entry_id m p)) (fun id =>
      if negb (id =? prev + 1) then rret (p, prev) else
      rbind (Some (to_nul m (p + 3) limit)) (fun q => names_walk k m max_id limit (align_up 4 (q + 1)) (id + 1) id))
  end.
(** getNamesSize, 1387-1420: the size; it corrects max_id. *)
Definition getNamesSize (fuel : nat) m t : run (Z * list Z) :=
  rbind (Some (t_names m t)) (fun names => if names =? 0 then rret (0, m) else
  rbind (Some (p_allocator m)) (fun limit => rbind (Some (t_max_id m t)) (fun max_id =>
  rbind (names_walk fuel m max_id limit names 0 (-1)) (fun '(p, max_id') =>
  rbind (Some (if max_id' =? max_id then Ok m else wr32 m t max_id')) (fun m => rret (p - names, m)))))).

(** How many bytes of the name are equal to what is stored. *)
Fixpoint common (n b : list Z) : Z :=
  match n, b with x :: n, y :: b => if x =? y then 1 + common n b else 0 | _, _ => 0 end.
(** getByName without index, 1240-1274: id, offset and type of what was found. *)
Fixpoint find_name (fuel : nat) m max_id limit name p id : run (option (Z * Z * Z)) :=
  match fuel with
  | O => None
  | S k =>
      if max_id <? id then rret None else
      rbind (Some (entry_id m p)) (fun id => rbind (Some (rd_u8 m (p + 2))) (fun type =>
      let q := p + 3 in
      if limit <=? q then rret None else
      rbind (Some (rd m q (limit - q))) (fun b =>
      let q := q + common name b in
      if limit <=? q then rret None else
      if (znth b (common name b) =? 0) && (common name b =? zlen name) then rret (Some (s16 id, p, type)) else
      rbind (Some (to_nul m q limit)) (fun q =>
      if limit <=? q then rret None else find_name k m max_id limit name (align_up 4 q) (id + 1)))))
  end.
(** With index, 1276-1291 *)
Fixpoint find_indexed (fuel : nat) m max_id index name id : run (option (Z * Z * Z)) :=
  match fuel with
  | O => None
  | S k =>
      if max_id <? id then rret None else
      rbind (Some (rd_s32 m (index + 4 * id))) (fun o => rbind (Some (rd_str m (o + 3))) (fun s =>
      if list_eq_dec Z.eq_dec s name then rbind (Some (rd_u8 m (o + 2))) (fun type => rret (Some (s16 id, o, type))) else find_indexed k m max_id index name (id + 1)))
  end.
Definition getByName (fuel : nat) m t name : run (option (Z * Z * Z)) :=
  rbind (Some (t_index m t)) (fun index => rbind (Some (t_max_id m t)) (fun max_id =>
  if index =? 0 then rbind (Some (t_names m t)) (fun names => rbind (Some (p_allocator m)) (fun limit => find_name fuel m max_id limit name names 0))
  else find_indexed fuel m max_id index name 0)).
(** The loops of getName and getType, 1316-1337 and 1353-1378: where the entry [search_id] is. *)
Fixpoint find_id (fuel : nat) m max_id limit search_id p id : run (option Z) :=
  match fuel with
  | O => None
  | S k =>
      if max_id <? id then rret None else
      rbind (Some (entry_id m p)) (fun id => if id =? search_id then rret (Some p) else
      rbind (Some (to_nul m (p + 3) limit)) (fun q =>
      if limit <=? q then rret None else find_id k m max_id limit search_id (align_up 4 (q + 1)) (id + 1)))
  end.
Definition entry_at (fuel : nat) m t search_id : run (option Z) :=
  rbind (Some (t_max_id m t)) (fun max_id => if (search_id <? 0) || (max_id <? search_id) then rret None else
  rbind (Some (t_index m t)) (fun index =>
  if index =? 0 then rbind (Some (t_names m t)) (fun names => rbind (Some (p_allocator m)) (fun limit => find_id fuel m max_id limit search_id names 0))
  else rbind (Some (rd_s32 m (index + 4 * search_id))) (fun o => rret (Some o)))).
(** getName, 1295-1342, and getType, 1344-1385, for ids that are not negative (the built-in names are in XTNR2str and XPNR2str). *)
Definition getName (fuel : nat) m t search_id : run (option (list Z)) :=
  rbind (entry_at fuel m t search_id) (fun o => match o with None => rret None | Some o => rbind (Some (rd_str m (o + 3))) (fun s => rret (Some s)) end).
Definition getType (fuel : nat) m t search_id : run (option Z) :=
  rbind (entry_at fuel m t search_id) (fun o => match o with None => rret None | Some o => rbind (Some (rd_u8 m (o + 2))) (fun ty => rret (Some ty)) end).

(** memcpy, memmove inside the pool *)
Definition copy m src dst n : outcome (list Z) := b <- rd m src n ;; wr m dst b.
(** Open, 1436-1454 *)
Definition Open (fuel : nat) m t : run (bool * list Z) :=
  rbind (getNamesSize fuel m t) (fun '(size, m) => rbind (Some (t_index m t)) (fun index => rbind (Some (t_names m t)) (fun names =>
  rbind (Some (p_allocator m)) (fun a => if (index =? 0) && (names + size =? a) then rret (true, m) else
  rbind (Some (allocate m size)) (fun '(x, m) => match x with
  | None => rret (false, m)
  | Some x => rbind (Some (m <- copy m names x size ;; m <- wr32 m (t + 8) 0 ;; wr32 m (t + 4) x)) (fun m => rret (true, m))
  end))))).
Definition FAST_REG := 1.
(** 2120-2136, 2164-2183: a name that was not found *)
Definition register_new (fuel : nat) m t name type : run (Z * list Z) :=
  rbind (Some (t_names m TAGS)) (fun tags => if (t =? PARAMS) && (tags =? 0) then rret (-1, m) else
  rbind (Open fuel m t) (fun '(ok, m) => if negb ok then rret (-1, m) else
  rbind (Some (allocate m (4 + zlen name))) (fun '(x, m) => match x with
  | None => rret (-1, m)
  | Some x => rbind (Some (t_max_id m t)) (fun max_id => rbind (Some (int_ (max_id + 1) (fun id =>
      m <- wr32 m t id ;; m <- wr m x (le 2 id) ;; m <- wr m (x + 2) [type] ;; m <- wr m (x + 3) (name ++ [0]) ;; Ok (id, m)))) (fun r => rret r))
  end))).
(** registerTag(name), 2100-2137, and registerParam, 2139-2184 (which checks the type and that there are names of tags first): the id, -1 if
    it failed. *)
Definition register (fuel : nat) m t name type : run (Z * list Z) :=
  if (t =? PARAMS) && negb ((XBT_NULL <=? type) && (type <? XBT_LAST)) then rret (-1, m) else
  rbind (Some (names <- t_names m t ;; if names =? 0 then a <- p_allocator m ;; wr32 m (t + 4) a else Ok m)) (fun m =>
  rbind (Some (t_flags m t)) (fun flags =>
  rbind (if Z.land flags FAST_REG =? 0 then getByName fuel m t name else rret None) (fun found =>
  match found with
  | Some (id, o, old) => if 0 <=? id then rbind (Some (if negb (old =? type) then wr m (o + 2) [XBT_JoinTypes type old] else Ok m)) (fun m => rret (id, m)) else register_new fuel m t name type
  | None => register_new fuel m t name type
  end))).
Definition registerTag (fuel : nat) m name type := register fuel m TAGS name type.
Definition registerParam (fuel : nat) m name type := register fuel m PARAMS name type.

(** registerTag(id) and registerAttr, 2005-2098, before the file is only checked: [true] is success. *)
Definition register_id (fuel : nat) m t id name type : run (bool * list Z) :=
  if negb ((XBT_NULL <=? type) && (type <? XBT_LAST)) then rret (false, m) else
  rbind (Open fuel m t) (fun '(ok, m) => if negb ok then rret (false, m) else
  rbind (Some (t_names m TAGS)) (fun tags => if (t =? PARAMS) && (tags =? 0) then rret (false, m) else
  rbind (Some (names <- t_names m t ;; if names =? 0 then a <- p_allocator m ;; wr32 m (t + 4) a else Ok m)) (fun m =>
  rbind (Some (max_id <- t_max_id m t ;; if max_id <? id then wr32 m t id else Ok m)) (fun m =>
  let size := 4 + zlen name in
  rbind (Some (allocate m size)) (fun '(x, m) => match x with
  | None => rret (false, m)
  | Some x => rbind (Some (m <- wr m x (le 2 id) ;; m <- wr m (x + 2) [type] ;; wr m (x + 3) (name ++ [0]))) (fun m =>
      if t =? PARAMS then rret (true, m) else rbind (Some (p_allocator m)) (fun a => rret (x + 3 + align_up 4 size =? a, m)))
  end))))).

(** ** The index *)
(** The loop of makeTable, 1565-1578 *)
Fixpoint fill_index (n : nat) m max_id index start stop : outcome (bool * list Z) :=
  match n with
  | O => Ok (true, m)
  | S k => if stop <=? start then Ok (false, m) else
      id <- rd_s16 m start ;; if (id <? 0) || (max_id <? id) then Ok (false, m) else
      m <- wr32 m (index + 4 * id) start ;; s <- rd_str m (start + 3) ;;
      fill_index k m max_id index (align_up 4 (start + 3 + zlen s + 1)) stop
  end.
(** makeTable, 1548-1581 *)
Definition makeTable (fuel : nat) m t : run (bool * list Z) :=
  rbind (Some (wr32 m (t + 8) 0)) (fun m => rbind (Some (t_max_id m t)) (fun max_id => if max_id <? 0 then rret (true, m) else
  rbind (Some (t_names m t)) (fun names => if names =? 0 then rret (false, m) else
  rbind (Some (int_ (max_id + 1) (fun n => allocate m (4 * n)))) (fun '(x, m) => match x with
  | None => rret (false, m)
  | Some x => rbind (getNamesSize fuel m t) (fun '(size, m) => rbind (Some (t_max_id m t)) (fun max_id =>
      rbind (Some (fill_index (Z.to_nat (max_id + 1)) m max_id x names (names + size))) (fun '(ok, m) => if negb ok then rret (false, m) else
      rbind (Some (wr32 m (t + 8) x)) (fun m => rret (true, m)))))
  end)))).
(** allRegistered, 2240-2250 *)
Definition allRegistered (fuel : nat) (disk check_only : bool) (failures : Z) m : run (bool * list Z) :=
  rbind (Some (makeSpace disk m 16384)) (fun '(ok, m) => if negb ok then rret (false, m) else
  rbind (Some (t_index m TAGS)) (fun it => rbind (Some (t_index m PARAMS)) (fun ip =>
  if check_only && negb (it =? 0) && negb (ip =? 0) then rret (failures =? 0, m) else
  rbind (if it =? 0 then makeTable fuel m TAGS else rret (true, m)) (fun '(ok, m) => if negb ok then rret (false, m) else
  rbind (Some (t_index m PARAMS)) (fun ip => if ip =? 0 then makeTable fuel m PARAMS else rret (true, m)))))).

(** Clear, 2307-2358 *)
Definition Clear (fuel : nat) m : run (bool * list Z) :=
  rbind (Some (wr32 m 44 0)) (fun m =>
  rbind (getNamesSize fuel m TAGS) (fun '(ts, m) => rbind (getNamesSize fuel m PARAMS) (fun '(ps, m) =>
  rbind (Some (t_names m TAGS)) (fun tsrc => rbind (Some (t_names m PARAMS)) (fun psrc =>
  let tdst := HEADER in let pdst := tdst + ts in
  rbind (Some (if (tdst <? tsrc) && (tsrc <? tdst + ts + ps) then
                 r <- allocate m ps ;; match r with (None, m) => Ok (None, m) | (Some x, m) => m <- copy m psrc x ps ;; Ok (Some x, m) end
               else Ok (Some psrc, m))) (fun '(psrc, m) => match psrc with None => rret (false, m) | Some psrc =>
  if negb (tsrc =? tdst) && negb ((psrc + ps <=? tdst) || (tdst + ts <=? psrc)) then rret (false, m) else
  rbind (Some (if tsrc =? tdst then Ok m else copy m tsrc tdst ts)) (fun m =>
  if negb (psrc =? pdst) && negb ((tsrc + ts <=? pdst) || (pdst + ps <=? tsrc)) then rret (false, m) else
  rbind (Some (if psrc =? pdst then Ok m else copy m psrc pdst ps)) (fun m =>
  rbind (Some (m <- wr32 m (TAGS + 4) HEADER ;; m <- wr32 m (TAGS + 8) 0 ;; m <- wr32 m (PARAMS + 4) (HEADER + ts) ;; wr32 m (PARAMS + 8) 0)) (fun m =>
  rbind (Some (p_allocator m)) (fun old => let new := HEADER + ts + ps in
  rbind (Some (m <- wr32 m 52 new ;; if new <? old then wr m new (zrepeat 0 (old - new)) else Ok m)) (fun m =>
  rbind (makeTable fuel m TAGS) (fun '(ok, m) => if negb ok then rret (false, m) else makeTable fuel m PARAMS))))))
  end)))))).

(** check, 1422-1434: the elements of the index must be among the names. *)
Fixpoint check_index (n : nat) m index i lo hi : outcome bool :=
  match n with
  | O => Ok true
  | S k => o <- rd_s32 m (index + 4 * i) ;; if (lo <=? o) && (o <? hi) then check_index k m index (i + 1) lo hi else Ok false
  end.
Definition check (fuel : nat) m t : run (bool * list Z) :=
  rbind (Some (t_index m t)) (fun index => if index =? 0 then rret (true, m) else
  rbind (getNamesSize fuel m t) (fun '(size, m) => rbind (Some (t_max_id m t)) (fun max_id => rbind (Some (t_names m t)) (fun names =>
  rbind (Some (check_index (Z.to_nat (max_id + 1)) m index 0 names (names + size))) (fun ok => rret (ok, m)))))).
