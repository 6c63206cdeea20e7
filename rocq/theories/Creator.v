(** Choosing the source and the result of a conversion: Bin_src_plugin_selector, src/bin_xml_packer.cpp:64-81, the constructors of
    Bin_xml_creator, src/bin_xml_creator.cpp:258-327, and DoAll, 360-369. *)
From Verif Require Import Base Text.

(** include/binary_xml/bin_xml_creator.h: XBTARGET_XB, XBTARGET_XBW *)
Inductive target := TargetXb | TargetXbw.
(** Bin_xml_plugin, Bin_json_plugin, BW_plugin *)
Inductive source_kind := XmlSource | JsonSource | PoolSource.

(** src/bin_xml_packer.cpp:64-81; [pools]: the library is built with BIN_WRITE_PLUGIN *)
Definition selector (pools : bool) (filename : list Z) : option source_kind :=
  match strrchr DOT filename with
  | None => None
  | Some i =>
      let dot := zskip i filename in
      if same_text dot (lit ".xml") || same_text dot (lit ".xsd") || same_text dot (lit ".wsdl") then Some XmlSource
      else if same_text dot (lit ".json") then Some JsonSource
      else if pools && same_text dot (lit ".xbw") then Some PoolSource
      else None
  end.

(** The members that matter here: src with the name of its file, dst; [None] is a null pointer. *)
Record creator_of := mkcr { c_src : option (source_kind * list Z); c_dst : option (list Z) }.
(** src/bin_xml_creator.cpp:265-268, 291-294 with src/utils.cpp:213: the name of the result *)
Definition dst_name (t : target) (dst : option (list Z)) : outcome (option (list Z)) :=
  match dst with
  | None => Ok None
  | Some d => obind (AllocFilenameChangeExt d (Some (match t with TargetXb => lit ".xb" | TargetXbw => lit ".xbw" end)) None) (fun n => Ok (Some n))
  end.
(** src/bin_xml_creator.cpp:258-282 *)
Definition creator_by_name (pools : bool) (src : list Z) (dst : option (list Z)) (t : target) : outcome creator_of :=
  obind (dst_name t dst) (fun d => Ok (mkcr (match selector pools src with Some k => Some (k, src) | None => None end) d)).
(** src/bin_xml_creator.cpp:284-305; [src] has the name of a file *)
Definition creator_by_source (src : source_kind * list Z) (dst : option (list Z)) (t : target) : outcome creator_of :=
  obind (dst_name t (match dst with None => Some (snd src) | d => d end)) (fun d => Ok (mkcr (Some src) d)).
(** src/bin_xml_creator.cpp:307-327: there is no argument dst, so the name is made from the member dst, which has no value yet. *)
Definition creator_without_dst (src : source_kind * list Z) (t : target) : outcome creator_of := Ub.

(** DoAll, src/bin_xml_creator.cpp:360-369: which of Make_xb and Make_xbw runs, from which source and into which file; [None]: it returns
    false.  Both begin with a call of the source (373, 594). *)
Definition DoAll (c : creator_of) : outcome (option (target * (source_kind * list Z) * list Z)) :=
  match c_dst c with
  | None => Ok None
  | Some dst =>
      if zlen dst =? 0 then Ok None else
      match c_src c with
      | None => Ub
      | Some s => Ok (Some (if last dst 0 =? ch "w" then TargetXbw else TargetXb, s, dst))
      end
  end.
