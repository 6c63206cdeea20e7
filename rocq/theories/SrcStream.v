(** Printing a source as XML: s_OnBinParam2Stream, s_OnParam2Stream, s_On2Stream and the stream operator of Bin_src_plugin,
    src/bin_xml_creator.cpp:144-258, for pools (BW_plugin) and for sources of texts, such as the JSON source.  The stream is the list of
    the bytes written. *)
From Verif Require Import Base Types Sort Xb XbWrite XbBin XmlOut Bw BwSym BwSource.

(** What an attribute looks like, src/bin_xml_creator.cpp:160-168. *)
Definition attr_out (name value : list Z) : list Z := [32] ++ name ++ [61; 34] ++ value ++ [34].

(** ** Pools *)
(** XBT_ToXMLStream of a value in the pool: the pointer given is moved to the next multiple of 4 or 8 that the type wants
    (src/bin_xml_types.cpp:805-813); the pool begins at a page. *)
Definition value_out fl chunks buf m x ty : run (list Z) := XBT_ToXMLStream fl chunks ty (zskip (align_to (XBT_Align ty) (x + 24)) m) buf.
(** BW_plugin::getNodeBinValue, src/bin_write_plugin.cpp:2790-2809: the type and whether there is a pointer.  The sizes are computed, and
    not used here. *)
Definition getNodeBinValue m x : outcome (Z * bool) :=
  obind (el_type m x) (fun ty =>
  if (ty =? XBT_BLOB) || (ty =? XBT_HEX) then obind (rd_s32 m (x + 24)) (fun _ => Ok (ty, true))
  else if ty =? XBT_STRING then obind (rd_str m (x + 24)) (fun _ => Ok (ty, true))
  else Ok (ty, negb (ty =? XBT_NULL))).
(** src/bin_write_plugin.cpp:2866-2891 with src/bin_xml_creator.cpp:160-168.  A name that is not there is a null pointer, which a stream must
    not be given ([Fail], as in BwSource). *)
Definition attr_stream fl chunks buf m a : run (list Z) :=
  rbind (Some (pool_param m a)) (fun '(n, ty, _) => rbind (value_out fl chunks buf m a ty) (fun v => rret (attr_out n v))).
(** src/bin_xml_creator.cpp:187-246.  [deep] and [siblings] are the context; the number of siblings left there is the one found plus one. *)
Fixpoint pool_stream (fuel lists chunks : nat) fl buf m x deep siblings : run (list Z) :=
  match fuel with
  | O => None
  | S k =>
      rbind (Some (getNodeName m x)) (fun name =>
      rbind (ForAllBinParams lists m x) (fun A => rbind (each (attr_stream fl chunks buf m) A) (fun attrs =>
      rbind (ForAllChildren lists m x) (fun L =>
      rbind ((fix children (L : list Z) (count : Z) : run (list Z) :=
        match L with
        | [] => rret []
        | y :: L => rbind (pool_stream k lists chunks fl buf m y (deep + 1) count) (fun s => rbind (children L (count + 1)) (fun r => rret (s ++ r)))
        end) L 0) (fun kids =>
      rbind (Some (getNodeBinValue m x)) (fun '(ty, there) =>
      let head := (if (0 <? deep) && (siblings =? 0) then [62; 10] else []) ++ tabs deep ++ [60] ++ name ++ List.concat attrs ++ kids in
      if zlen L =? 0 then
        if there then rbind (value_out fl chunks buf m x ty) (fun v => rret (head ++ [62] ++ v ++ [60; 47] ++ name ++ [62; 10]))
        else rret (head ++ [47; 62; 10])
      else
        rbind (if ty =? XBT_NULL then rret [] else rbind (value_out fl chunks buf m x ty) (fun v => rret (tabs (deep + 1) ++ v ++ [10]))) (fun v =>
        rret (head ++ v ++ tabs deep ++ [60; 47] ++ name ++ [62; 10]))))))))
  end.
(** src/bin_xml_creator.cpp:248-254, with getRoot, src/bin_write_plugin.cpp:2277-2284.  Without a root the name of a null pointer is asked for,
    "?", and then its type, which is not set: left out ([Fail]). *)
Definition pool_print (fuel : nat) fl buf m : run (list Z) :=
  rbind (Some (p_root m)) (fun r => if r =? 0 then Some Fail else pool_stream fuel fuel fuel fl buf m r 0 0).

(** ** Sources of texts *)
(** They have no binary attributes (include/binary_xml/bin_xml_creator.h:53) and no binary values (src/bin_xml_creator.cpp:93-98: a null pointer and
    XBT_UNKNOWN).  Attributes: src/bin_xml_creator.cpp:170-184. *)
Fixpoint text_stream (chunks : nat) fl buf (t : node) (deep siblings : Z) : run (list Z) :=
  let '(Node name value attrs kids) := t in
  rbind ((fix children (L : list node) (count : Z) : run (list Z) :=
    match L with
    | [] => rret []
    | y :: L => rbind (text_stream chunks fl buf y (deep + 1) count) (fun s => rbind (children L (count + 1)) (fun r => rret (s ++ r)))
    end) kids 0) (fun ks =>
  let head := (if (0 <? deep) && (siblings =? 0) then [62; 10] else []) ++ tabs deep ++ [60] ++ name ++ flat_map (fun '(n, v) => attr_out n (flat_map xml_escape v)) attrs ++ ks in
  if zlen kids =? 0 then rret (head ++ [47; 62; 10])
  else rbind (XBT_ToXMLStream fl chunks XBT_UNKNOWN [] buf) (fun v => rret (head ++ tabs (deep + 1) ++ v ++ [10] ++ tabs deep ++ [60; 47] ++ name ++ [62; 10]))).
