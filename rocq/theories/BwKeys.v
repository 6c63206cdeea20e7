(** Model of copying a path of a document into a pool: EqualKeys, CopyKeys, CopyPath and CopyPathOnly, src/bin_write_plugin.cpp:1150-1227, 2634-2743.

    Which attributes are keys is up to a class derived from XB_reader (ParamIsKey, src/bin_xml.cpp:856 is virtual): here the argument [key]. *)
From Verif Require Import Base Types Sort Xb XbWrite Bw BwAttr BwTag BwSource BwCopy.

(** src/bin_write_plugin.cpp:33; include/binary_xml/bin_xml.h:52 *)
Definition MAX_PARAM_KEYS := 16.
Definition XTNR_TRANSACTION := -10.

Section Keys.
Variable key : Z -> bool.

(** The loop of CopyKeys, 1157-1162: [n] attributes of [y] from [i] on; [false]: it returns NULL. *)
Fixpoint copy_keys (n : nat) fl d m x y i : outcome (bool * list Z) :=
  match n with
  | O => Ok (true, m)
  | S n' => obind (getParamByIndex d (Some y) i) (fun q => match q with
      | None => Ub
      | Some q => obind (pd_name d q) (fun id => if negb (key id) then copy_keys n' fl d m x y (i + 1) else
          obind (attrCopy fl d m x y q) (fun '(r, m) => match r with None => Ok (false, m) | Some _ => copy_keys n' fl d m x y (i + 1) end))
      end)
  end.
(** BW_element::CopyKeys, 1150-1164 *)
Definition CopyKeys fl d m x y : outcome (bool * list Z) :=
  obind (el_child m x) (fun c => if negb (c =? 0) then Ok (false, m) else
  obind (el_attr m x) (fun a => if negb (a =? 0) then Ok (false, m) else
  obind (el_id m x) (fun id => obind (it_name d y) (fun nm => if negb (id =? nm) then Ok (false, m) else
  obind (it_paramcount d y) (fun pc => copy_keys (Z.to_nat pc) fl d m x y 0))))).

(** The first loop of EqualKeys, 1177-1206: the ids of the keys of [y] that [x] has with equal values; [None]: it returns false.  The inner loop is that of
    attrGet; no attributes at all and no such attribute are the same here.  The bytes of both values are read also if their types differ. *)
Fixpoint keys_in (n : nat) (fuel : nat) fl d m x y i (checked : list Z) : run (option (list Z)) :=
  match n with
  | O => rret (Some checked)
  | S n' => rbind (Some (getParamByIndex d (Some y) i)) (fun q => match q with
      | None => Some Ub
      | Some q => rbind (Some (pd_name d q)) (fun id => if negb (key id) then keys_in n' fuel fl d m x y (i + 1) checked else
          rbind (attrGet fuel m x id) (fun a => match a with
          | None => rret None
          | Some a => rbind (Some (param_getData d (Some q) (Some y))) (fun r => match dr_data r with
              | None => rret None
              | Some _ => rbind (Some (bw_getData m a)) (fun '(ty, v, _) => rbind (Some (ref_bytes d (dr_data r) (dr_size r))) (fun w =>
                  rbind (Some (XBT_Equal fl (dr_type r) w ty v)) (fun b => if negb b then rret None else
                  if negb (zlen checked <? MAX_PARAM_KEYS) then rret None else keys_in n' fuel fl d m x y (i + 1) (checked ++ [id]))))
              end)
          end))
      end)
  end.
(** The second one, 1208-1223: from the attribute [c] on, are all keys among the [checked] ones *)
Fixpoint only_checked (fuel : nat) m x (checked : list Z) c : run bool :=
  match fuel with
  | O => None
  | S k => rbind (Some (el_id m c)) (fun id => if key id && negb (isin id checked) then rret false else
      rbind (Some (el_next m c)) (fun n => rbind (Some (el_attr m x)) (fun first => if n =? first then rret true else
      rbind (Some (bwe m x n)) (fun c => only_checked k m x checked c))))
  end.
(** BW_element::EqualKeys, 1166-1227, for an item that is not null *)
Definition EqualKeys (fuel : nat) fl d m x y : run bool :=
  rbind (Some (it_paramcount d y)) (fun pc => rbind (keys_in (Z.to_nat pc) fuel fl d m x y 0 []) (fun c => match c with
  | None => rret false
  | Some checked => rbind (Some (el_attr m x)) (fun first => if first =? 0 then rret true else
      rbind (Some (bwe m x first)) (fun c => only_checked fuel m x checked c))
  end)).

(** The search of CopyPath_ among the children of [x], 2711-2725, with BWE of the plugin *)
Fixpoint find_equal (fuel lists : nat) fl d m x y c : run (option Z) :=
  match fuel with
  | O => None
  | S k => rbind (EqualKeys lists fl d m c y) (fun b => if b then rret (Some c) else
      rbind (Some (el_next m c)) (fun n => rbind (Some (el_child m x)) (fun first => if n =? first then rret None else
      rbind (Some (plugin_bwe m n)) (fun c => find_equal k lists fl d m x y c))))
  end.
Definition search (fuel : nat) fl d m x y : run (option Z) :=
  rbind (Some (el_child m x)) (fun first => if first =? 0 then rret None else rbind (Some (plugin_bwe m first)) (fun c => find_equal fuel fuel fl d m x y c)).
(** CopyKeys of [dst], which may be null, and the check of its result in CopyPath_ *)
Definition copy_into fl d m (dst : option Z) src : run (bool * list Z) := match dst with None => Some Ub | Some x => Some (CopyKeys fl d m x src) end.
(** The loop of CopyPath_, 2690-2738; [items] are the arguments up to the null pointer.  The checks return NULL; else the result is the last element. *)
Fixpoint walk (fuel : nat) (whole : bool) fl disk d m src (dst : option Z) (copy : bool) (items : list Z) : run (option Z * list Z) :=
  match items with
  | [] =>
      if negb copy then rret (dst, m)
      else if whole then rbind (CopyAll fuel fl disk d m dst src) (fun '(r, m) => rret (match r with None => None | Some _ => dst end, m))
      else rbind (copy_into fl d m dst src) (fun '(ok, m) => rret (if ok then dst else None, m))
  | e :: items =>
      rbind (if copy then copy_into fl d m dst src else rret (true, m)) (fun '(ok, m) => if negb ok then rret (None, m) else
      match dst with
      | None => Some Ub
      | Some x => rbind (search fuel fl d m x e) (fun c => match c with
          | Some c => walk fuel whole fl disk d m e (Some c) false items
          | None => rbind (Some (it_name d e)) (fun nm => rbind (Some (bw_tag disk m nm)) (fun '(t, m) =>
              rbind (match t with None => rret m | Some t => Some (obind (add m x t) (fun '(_, tr) => Ok (final m tr))) end) (fun m => walk fuel whole fl disk d m e t true items)))
          end)
      end)
  end.
(** CopyPath_, 2654-2743; CopyPath and CopyPathOnly, 2636-2652, call it with true and false. *)
Definition CopyPath (fuel : nat) (whole : bool) fl disk d (R : reader) m (root : option Z) (items : list Z) : run (option Z * list Z) :=
  match root with
  | None => rret (None, m)
  | Some root =>
    if negb (match rd_root R with Some r => r =? root | None => false end) then rret (None, m) else
    rbind (Some (it_name d root)) (fun nm => rbind (Some (p_root m)) (fun r =>
    if r =? 0 then rbind (Some (bw_tag disk m nm)) (fun '(t, m) => rbind (match t with None => rret m | Some x => Some (setRoot m x) end) (fun m => walk fuel whole fl disk d m root t true items))
    else
      let go m x := rbind (Some (el_id m x)) (fun id => if negb (id =? nm) then rret (None, m) else
        rbind (EqualKeys fuel fl d m x root) (fun b => if b then walk fuel whole fl disk d m root (Some x) false items else rret (None, m))) in
      rbind (Some (plugin_bwe m r)) (fun x => rbind (Some (el_id m x)) (fun id =>
      if (id =? XTNR_TRANSACTION) && negb (nm =? XTNR_TRANSACTION) then
        rbind (Some (el_child m x)) (fun c => if c =? 0 then
          rbind (Some (bw_tag disk m nm)) (fun '(t, m) => match t with
          | None => Some Ub
          | Some t => rbind (Some (el_offset m t)) (fun o => rbind (Some (wr32 m (x + 16) o)) (fun m => rbind (Some (el_child m x)) (fun c => rbind (Some (plugin_bwe m c)) (fun x =>
              walk fuel whole fl disk d m root (Some x) true items))))
          end)
        else rbind (Some (plugin_bwe m c)) (fun x => go m x))
      else go m x))))
  end.
End Keys.
