(** Other types for elements and for names of a pool (src/bin_write_plugin.cpp, src/bin_xml_types.cpp). *)
From Verif Require Import Base Types Sort Xb XbWrite Bw BwSym.

(** BW_element::retype, src/bin_write_plugin.cpp:190-220.  Whether the element is returned (the C++ code returns this or null). *)
Definition retype m e new_type : outcome (bool * list Z) :=
  obind (el_type m e) (fun old =>
  if old =? new_type then Ok (true, m) else
  if XBT_IS_4 new_type then (if XBT_IS_4 old then obind (wr m (e + 7) [new_type]) (fun m => Ok (true, m)) else Ok (false, m))
  else if XBT_IS_8 new_type then (if XBT_IS_8 old then obind (wr m (e + 7) [new_type]) (fun m => Ok (true, m)) else Ok (false, m))
  else if XBT_IS_VARSIZE new_type then (if XBT_IS_VARSIZE old then obind (wr m (e + 7) [new_type]) (fun m => Ok (true, m)) else Ok (false, m))
  else Ok (false, m)).

(** XBT_ConvertableStatus, include/binary_xml/bin_xml_types.h:123-128 *)
Inductive status := Nonconvertable | LooseConvertable | Convertable.
(** XBT_ConvertableType, src/bin_xml_types.cpp:1148-1214 *)
Definition XBT_ConvertableType (src dst : Z) : status :=
  if src =? dst then Convertable else
  if dst =? XBT_NULL then LooseConvertable else
  if dst =? XBT_STRING then (if isin src [XBT_BLOB; XBT_HEX] then Nonconvertable else Convertable) else
  if isin dst [XBT_BLOB_STRING; XBT_BLOB] then Convertable else
  if dst =? XBT_INT32 then
    (if isin src [XBT_FLOAT; XBT_DOUBLE] then LooseConvertable else
     if isin src [XBT_UNIX_TIME; XBT_UNIX_DATE] then Convertable else
     if isin src [XBT_UNIX_TIME64_MSEC; XBT_INT32_DECI; XBT_INT32_CENTI; XBT_INT32_MILI; XBT_INT32_MICRO; XBT_INT32_NANO] then LooseConvertable else Nonconvertable)
  else Nonconvertable.

(** BW_plugin::alterTag and alterAttr, src/bin_write_plugin.cpp:2186-2206, with getType, 1344-1385, which gives the place of the type. *)
Definition alter (fuel : nat) m t id type : run (bool * list Z) :=
  if negb ((XBT_NULL <=? type) && (type <? XBT_LAST)) then rret (false, m) else
  rbind (entry_at fuel m t id) (fun o => match o with
  | None => rret (false, m)
  | Some o =>
      rbind (Some (rd_u8 m (o + 2))) (fun current =>
      match XBT_ConvertableType current type with
      | Convertable => rbind (Some (wr m (o + 2) [type])) (fun m => rret (true, m))
      | _ => rret (false, m)
      end)
  end).
Definition alterTag (fuel : nat) m id type := alter fuel m TAGS id type.
Definition alterAttr (fuel : nat) m id type := alter fuel m PARAMS id type.
