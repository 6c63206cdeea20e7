(** Model of the pool as a source of the converter: BW_plugin::getNodeName ... getSymbol, src/bin_write_plugin.cpp:2771-2929, and the
    start of Make_xb with it, src/bin_xml_creator.cpp:371-443.  The memory of the pool is the whole file. *)
From Verif Require Import Base Types Sort Symtab Xb XbWrite XbBin Bw BwSym.

(** XPNR2str, src/bin_xml.cpp:902-918 *)
Definition XPNR2str (n : Z) : list Z :=
  if n =? -1 then lit "NULL" else if n =? -2 then lit "name" else if n =? -3 then lit "hash" else if n =? -4 then lit "modified"
  else if n =? -5 then lit "count" else if n =? -6 then lit "version" else if n =? -7 then lit "type_count" else if n =? -8 then lit "id"
  else if n =? -9 then lit "author" else if n =? -10 then lit "time_ms" else lit "__reserved__".
(** BW_pool::getTagName, src/bin_write_plugin.cpp:1490-1501, and getAttrName, 1534-1546; [None] is the null pointer. *)
Definition name_of (builtin : Z -> list Z) t m id : outcome (option (list Z)) :=
  obind (t_index m t) (fun index => if index =? 0 then Ok None else
  if id <? 0 then Ok (Some (builtin id)) else
  obind (t_max_id m t) (fun max_id => if max_id <? id then Ok None else
  obind (rd_s32 m (index + 4 * id)) (fun o => if o =? 0 then Ok None else obind (rd_str m (o + 3)) (fun s => Ok (Some s))))).
Definition getTagName := name_of XTNR2str TAGS.
Definition getAttrName := name_of XPNR2str PARAMS.

(** getSymbolCount and getSymbol, 2893-2929, for all numbers below the count: names with their types.  A null name has type XBT_UNKNOWN
    and is skipped by CopySymbolTable. *)
Fixpoint symbols_from (n : nat) (get_name : Z -> outcome (option (list Z))) (get_type : Z -> outcome Z) i : outcome (list (list Z * Z)) :=
  match n with
  | O => Ok []
  | S k => obind (get_type i) (fun ty => obind (get_name i) (fun nm =>
      obind (symbols_from k get_name get_type (i + 1)) (fun l => Ok (match nm with Some s => (s, ty) | None => ([], XBT_UNKNOWN) end :: l))))
  end.
Definition pool_tags m := obind (t_max_id m TAGS) (fun x => symbols_from (Z.to_nat (x + 1)) (getTagName m) (getTagType m) 0).
Definition pool_params m := obind (t_max_id m PARAMS) (fun x => symbols_from (Z.to_nat (x + 1)) (getAttrName m) (getAttrType m) 0).

(** BW_plugin::BWE, 2811-2817: a null pointer, which every caller then follows, is [Ub]. *)
Definition plugin_bwe m o : outcome Z := obind (p_file_size m) (fun fs => if (0 <=? o) && (o + 24 <=? fs) then Ok o else Ub).
(** ForAllChildren, 2819-2833, and ForAllBinParams, 2870-2891: the elements visited; [next] is how a link is followed: the former uses BWE of
    the parent, the latter that of the plugin. *)
Fixpoint visit (fuel : nat) (follow : Z -> outcome Z) m field c : run (list Z) :=
  match fuel with
  | O => None
  | S k => rbind (Some (el_next m c)) (fun n => rbind (Some (rd_s32 m field)) (fun first => if n =? first then rret [c] else
      rbind (Some (follow n)) (fun d => rbind (visit k follow m field d) (fun l => rret (c :: l)))))
  end.
Definition for_all (fuel : nat) (follow : Z -> outcome Z) m field : run (list Z) :=
  rbind (Some (rd_s32 m field)) (fun first => if first =? 0 then rret [] else rbind (Some (plugin_bwe m first)) (fun c => visit fuel follow m field c)).
Definition ForAllChildren fuel m x := for_all fuel (bwe m x) m (x + 16).
Definition ForAllBinParams fuel m x := for_all fuel (plugin_bwe m) m (x + 20).

(** getNodeName, 2771-2782.  The converter writes the id -1 for a null name (Find, src/bin_xml_creator.cpp:1256); that is left out ([Fail]). *)
Definition getNodeName m x : outcome (list Z) :=
  obind (p_file_size m) (fun fs => if (0 <? x) && (x + 24 <=? fs) then
    obind (el_flags m x) (fun f => obind (el_id m x) (fun id =>
    obind (if is_element f then getTagName m id else getAttrName m id) (fun n => match n with Some s => Ok s | None => Fail end)))
  else Fail).
(** What ForAllBinParams delivers for an attribute: the name, the type, and BWD, bin_write_plugin.cpp:98-101: the memory behind the header. *)
Definition pool_param m a : outcome (list Z * Z * list Z) :=
  obind (el_id m a) (fun id => obind (getAttrName m id) (fun n => match n with None => Fail | Some s =>
  obind (el_type m a) (fun ty => Ok (s, ty, zskip (a + 24) m)) end)).
Fixpoint each {A B} (f : A -> run B) (l : list A) : run (list B) :=
  match l with [] => rret [] | x :: l => rbind (f x) (fun y => rbind (each f l) (fun r => rret (y :: r))) end.
(** What the converter sees of the element at [x]: it asks for names, attributes and children while it writes; nothing of that
    changes the pool, so it is collected first here. *)
Fixpoint pool_node (fuel lists : nat) m x : run bnode :=
  match fuel with
  | O => None
  | S k =>
      rbind (Some (getNodeName m x)) (fun name => rbind (Some (el_type m x)) (fun ty =>
      rbind (ForAllBinParams lists m x) (fun A => rbind (each (fun a => Some (pool_param m a)) A) (fun attrs =>
      rbind (ForAllChildren lists m x) (fun L => rbind (each (pool_node k lists m) L) (fun kids =>
      rret (BNode name ty (zskip (x + 24) m) attrs kids)))))))
  end.
(** Make_xb: without a root it gives up.  [buf] is the buffer from malloc; it has [buffer_size] bytes (lines 396-398; a size that does not fit
    an int32_t is not modelled). *)
Definition buffer_size (m : list Z) := 1024 + zlen m * 4.
Definition PoolMake_xb (fuel : nat) (buf : list Z) m filename modified : run (list Z) :=
  rbind (Some (p_root m)) (fun r => if r =? 0 then Some Fail else
  rbind (Some (pool_tags m)) (fun tags => rbind (Some (pool_params m)) (fun params =>
  rbind (pool_node fuel fuel m r) (fun t => BinMake_xb buf filename modified tags params t)))).
