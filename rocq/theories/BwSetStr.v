(** Another text for an element of a pool (BW_element::setStr, src/bin_write_plugin.cpp:1027-1063). *)
From Verif Require Import Base Types Sort Xb XbWrite Bw BwTag.

(** Lines 1027-1063 with getData, 1001-1025, for texts: where the content is, and the size of its space.  A null value is handed to strcmp and is not
    modelled; the message for other types (1036) neither.  Without a new element the code stores through a null pointer: [Ub].  [disk]: there is room for a larger file. *)
Definition setStr disk m x parent (value : list Z) : outcome (bool * list Z) :=
  obind (el_type m x) (fun ty =>
  if negb ((ty =? XBT_STRING) || (ty =? XBT_BLOB_STRING)) then Ok (false, m) else
  obind (if ty =? XBT_STRING then obind (rd_str m (x + 24)) (fun s => Ok (x + 24, 1 + zlen s)) else obind (rd_s32 m (x + 24)) (fun n => Ok (x + 28, n))) (fun '(content, content_size) =>
  obind (rd_str m content) (fun old =>
  if list_eq_dec Z.eq_dec old value then Ok (false, m) else
  if zlen value + 1 <=? content_size then obind (wr m content (value ++ [0])) (fun m => Ok (true, m)) else
  obind (rd_s32 m (x + 20)) (fun first_attribute =>
  obind (wr32 m (x + 20) 0) (fun m =>
  obind (remove m parent x) (fun '(_, tr) => let m := final m tr in
  obind (el_id m x) (fun id =>
  obind (bw_tagStr disk m id value) (fun '(new_value, m) => match new_value with
  | None => Ub
  | Some n =>
      obind (add m parent n) (fun '(_, tr) => let m := final m tr in
      obind (wr32 m (n + 20) first_attribute) (fun m => Ok (true, m)))
  end)))))))).
