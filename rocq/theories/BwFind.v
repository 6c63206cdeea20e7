(** Model of looking for a child of an element of a pool: findChildByTag, findChildByParam and findAttr, src/bin_write_plugin.cpp:1065-1148. *)
From Verif Require Import Base Scan Types Sort Xb XbWrite Bw.

(** XBT_Compare, src/bin_xml_types.cpp:258-307, of [n] bytes of type [ty] at [p] in the pool with what a client hands over: [data] is what can be read from the pointer on.  Texts are read up to the NUL, without one it is [Ub]
    also if they differ earlier.  The types with a fixed size are given with this size in [n] (XBT_Size2), so only [size] matters.  A negative size is handed to memcmp. *)
Definition compare_at m p ty n type (data : list Z) size : outcome Z :=
  if (ty =? type) && isin ty [XBT_STRING; XBT_BLOB_STRING] then obind (rd_str m p) (fun A => obind (rd_str data 0) (fun B => Ok (memcmp A B)))
  else if negb (n =? size) then Ok INT_NULL_VALUE
  else if (ty =? type) && isin ty [XBT_NULL; XBT_VARIANT; XBT_BLOB; XBT_UNKNOWN; XBT_LAST] then Ok INT_NULL_VALUE
  else if n <? 0 then Ub
  else obind (rd m p n) (fun A => obind (rd data 0 n) (fun B => Ok (XBT_Compare ty A type B))).

(** The inner loop of findChildByParam, 1099-1115, from the attribute [a] of [child] on.  BWE is that of [x]. *)
Fixpoint attr_equal (fuel : nat) m x child id type data size a : run bool :=
  match fuel with
  | O => None
  | S k => rbind (Some (el_id m a)) (fun i =>
      rbind (if i =? id then rbind (Some (el_type m a)) (fun ty => rbind (Some (XBT_Size2 ty 0)) (fun n => rbind (Some (compare_at m (a + 24) ty n type data size)) (fun c => rret (c =? 0)))) else rret false) (fun b =>
      if b then rret true else
      rbind (Some (el_next m a)) (fun n => rbind (Some (el_attr m child)) (fun first => if n =? first then rret false else
      rbind (Some (bwe m x n)) (fun a => attr_equal k m x child id type data size a)))))
  end.
(** The outer loop, 1092-1121, from the child [c] on; [inner]: fuel of the inner loop *)
Fixpoint child_equal (fuel inner : nat) m x tag id type data size c : run (option Z) :=
  match fuel with
  | O => None
  | S k => rbind (Some (el_id m c)) (fun i =>
      rbind (if i =? tag then rbind (Some (el_attr m c)) (fun first => if first =? 0 then rret false else rbind (Some (bwe m x first)) (fun a => attr_equal inner m x c id type data size a)) else rret false) (fun b =>
      if b then rret (Some c) else
      rbind (Some (el_next m c)) (fun n => rbind (Some (el_child m x)) (fun first => if n =? first then rret None else
      rbind (Some (bwe m x n)) (fun c => child_equal k inner m x tag id type data size c)))))
  end.
(** BW_element::findChildByParam, 1085-1122 *)
Definition findChildByParam (fuel : nat) m x tag id type data size : run (option Z) :=
  rbind (Some (el_child m x)) (fun first => if first =? 0 then rret None else rbind (Some (bwe m x first)) (fun c => child_equal fuel fuel m x tag id type data size c)).
(** BW_element::findChildByTag, 1065-1083; findAttr, 1124-1141; findAttrInt32, 1143-1148 *)
Definition findChildByTag fuel m x tag : run (option Z) := get_el fuel m x (x + 16) tag.
Definition findAttr fuel m x id : run (option Z) := get_el fuel m x (x + 20) id.
Definition findAttrInt32 fuel m x id : run (option Z) := rbind (findAttr fuel m x id) (fun a => match a with None => rret None | Some a => Some (bw_getInt32 m a) end).
